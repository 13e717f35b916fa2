(** C51-C54, C66: the OPL format. *)
From Coq Require Import String ZArith List Bool Lia.
From Coq Require Import ZifyBool ZifyNat.
From Verif Require Import Base SpecNum Ints Utf8 Opl OplFacts.
Import ListNotations.
Open Scope Z_scope.

(** ** C51 *)

(** Full statement: for every string.  Proved for strings without '%'. *)
Theorem C51_string_partial : forall s, ~ In (chr "%") s -> decode_string (encode_string s) = Some s.
Proof. exact decode_encode. Qed.
Print Assumptions C51_string_partial.

(** A percent sign is not encoded: it swallows what follows it. *)
Theorem C51_percent_refuted : forall a b, ~ In (chr "%") a -> ~ In (chr "%") b -> (forall c, In c b -> ~ special c) ->
  decode_string (encode_string (a ++ lit "%" ++ b)) = Some a.
Proof.
  intros a b Ha Hb Hs. unfold decode_string. rewrite encode_string_chars, flat_map_app, <- encode_string_chars.
  rewrite dec_encode by exact Ha. rewrite flat_map_app, <- (encode_string_chars b), (encode_plain b Hs).
  change (flat_map enc_char (lit "%")) with [37]. cbn [app dec_str]. change (37 =? 37) with true. cbv iota.
  rewrite dec_lost by exact Hb. cbn [opt_map]. now rewrite app_nil_r.
Qed.
Print Assumptions C51_percent_refuted.

Example C51_ex : encode_string (lit "a b=c,d@e") = lit "a%20%b%3D%c%2C%d%40%e"
  /\ decode_string (encode_string (lit "a b=c,d@e")) = Some (lit "a b=c,d@e")
  /\ decode_string (encode_string (lit "100% wool")) = None
  /\ decode_string (encode_string (lit "100%")) = Some (lit "100").
Proof. vm_compute. auto. Qed.

(** ** C52 *)

(** Tags: the argument is the map in any order of iteration.  Full statement:
    for every map.  Proved when no key or value has a '%'. *)
Theorem C52_tags_partial : forall l, NoDup (map fst l) ->
  (forall k v, In (k, v) l -> ~ In (chr "%") k /\ ~ In (chr "%") v) ->
  exists m, decode_tags (encode_tags l) = Ret (Some m) /\ forall k v, map_get k m = Some v <-> In (k, v) l.
Proof.
  intros l Hd H. exists l. split.
  - apply decode_tags_encoded; [|exact Hd]. apply Forall_forall. intros [k v] Hi. exact (H k v Hi).
  - clear H. induction l as [|[a b] l IH]; intros k v; cbn [map_get In]; [split; [discriminate|easy]|].
    cbn [map fst] in Hd. inversion Hd as [|? ? Hn Hd']; subst. destruct (str_eqb k a) eqn:E.
    + apply str_eqb_eq in E. subst a. split; [intros [= ->]; now left|].
      intros [[= ->]|Hi]; [reflexivity|]. exfalso. apply Hn. apply in_map_iff. exists (k, v). auto.
    + rewrite IH by exact Hd'. split; [now right|]. intros [[= -> ->]|Hi]; [|exact Hi].
      rewrite str_eqb_refl in E. discriminate.
Qed.
Print Assumptions C52_tags_partial.

(** Way nodes and members.  Full statement: for every list.  Proved for lists that
    are not empty and roles without ','. *)
Theorem C52_way_nodes_partial : forall l, l <> [] -> Forall in_i64 l ->
  decode_way_nodes (encode_way_nodes l) = Ret (Some l).
Proof. exact decode_way_nodes_encoded. Qed.
Print Assumptions C52_way_nodes_partial.

Theorem C52_members_partial : forall l, l <> [] ->
  (forall t id role, In (t, id, role) l -> (t = chr "n" \/ t = chr "w" \/ t = chr "r") /\ in_i64 id /\ ~ In (chr ",") role) ->
  decode_members (encode_members l) = Ret (Some l).
Proof.
  intros l Hn H. apply decode_members_encoded; [exact Hn|]. apply Forall_forall. intros [[t id] role] Hi.
  destruct (H t id role Hi) as (Ht & Hid & Hr). cbn in Ht. unfold member_ok. repeat split; try apply Hid; try exact Hr; lia.
Qed.
Print Assumptions C52_members_partial.

(** An empty list does not survive: the decoder wants at least one element. *)
Theorem C52_empty_refuted :
  decode_way_nodes (encode_way_nodes []) = Ret None /\ decode_members (encode_members []) = Ret None.
Proof. split; reflexivity. Qed.
Print Assumptions C52_empty_refuted.

(** A role with a ',' is cut there, if what follows can be read at all. *)
Theorem C52_role_refuted : forall id a b l, in_i64 id -> ~ In (chr ",") a -> ~ In (chr ",") b ->
  decode_members (encode_members [(chr "n", id, a ++ lit "," ++ b)]) <> Ret (Some ((chr "n", id, a ++ lit "," ++ b) :: l)).
Proof.
  intros id a b l Hid Ha Hb H. unfold decode_members, encode_members in H. cbn [map join] in H.
  change (lit ",") with [44] in H. cbn [app] in H.
  replace (chr "n" :: show_int id ++ 64 :: a ++ 44 :: b) with ((chr "n" :: show_int id ++ 64 :: a) ++ 44 :: b) in H
    by (cbn [app]; rewrite <- app_assoc; reflexivity).
  rewrite split_on_app in H.
  2: { cbn [In]. rewrite in_app_iff. cbn [In]. change (chr "n") with 110. intros [Q|[Q|[Q|Q]]]; [lia| |lia|exact (Ha Q)].
       now apply show_int_no in Q; unfold is_digit; try lia. }
  cbn [rmapM] in H. fold (rmapM decode_member) in H. unfold decode_member at 1 in H.
  rewrite split_kv in H by (cbn; lia). cbn [rbind hd_error] in H.
  rewrite splitn2_app in H by (apply show_int_no; unfold is_digit; lia). cbn [unwrap obind] in H.
  rewrite parse_show_i64 in H by exact Hid. cbn [rbind] in H.
  destruct (rmapM decode_member (split_on 44 b)) as [[bs|]|]; cbn [rbind] in H; try discriminate.
  injection H as H _. apply (f_equal (@length Z)) in H. rewrite app_length in H. cbn [length] in H. lia.
Qed.
Print Assumptions C52_role_refuted.

Example C52_ex :
  decode_tags (encode_tags [(lit "name", lit "a, b"); (lit "x=y", lit "")]) = Ret (Some [(lit "name", lit "a, b"); (lit "x=y", lit "")])
  /\ decode_way_nodes (encode_way_nodes [1; -2; 1]) = Ret (Some [1; -2; 1])
  /\ decode_members (encode_members [(chr "w", 7, lit "outer"); (chr "n", -1, lit "")])
     = Ret (Some [(chr "w", 7, lit "outer"); (chr "n", -1, [])]).
Proof. vm_compute. auto. Qed.

(** [ps] are the parts of [s] between the separators [c]. *)
Definition parts (c : char) (s : str) (ps : list str) : Prop :=
  ps <> [] /\ Forall (fun p => ~ In c p) ps /\ s = join [c] ps.

Lemma join_split c s : s = join [c] (split_on c s).
Proof.
  induction s as [|x s IH]; [reflexivity|]. cbn [split_on]. pose proof (split_on_pieces c s) as [_ HN].
  destruct (split_on c s) as [|w ws] eqn:E; [congruence|]. destruct (x =? c) eqn:E2.
  - assert (x = c) by lia. subst x. change (join [c] ([] :: w :: ws)) with ([] ++ [c] ++ join [c] (w :: ws)).
    rewrite <- IH. reflexivity.
  - destruct ws as [|w2 ws]; [cbn [join] in *; now rewrite IH|].
    change (join [c] ((x :: w) :: w2 :: ws)) with (x :: (w ++ [c] ++ join [c] (w2 :: ws))).
    change (join [c] (w :: w2 :: ws)) with (w ++ [c] ++ join [c] (w2 :: ws)) in IH. now rewrite <- IH.
Qed.
Lemma parts_split c s : parts c s (split_on c s).
Proof. destruct (split_on_pieces c s). repeat split; [assumption|assumption|apply join_split]. Qed.

Lemma rmapM_nopanic {A B} (f : A -> result B) l : (forall a, In a l -> f a <> Panic) -> rmapM f l <> Panic.
Proof.
  induction l as [|a l IH]; intros H; [discriminate|]. cbn [rmapM]. fold (rmapM f).
  pose proof (H a (or_introl eq_refl)). destruct (f a) as [[b|]|]; cbn [rbind]; [|discriminate|congruence].
  assert (rmapM f l <> Panic) by (apply IH; intros; apply H; now right).
  destruct (rmapM f l) as [[bs|]|]; cbn [rbind]; congruence.
Qed.
Lemma dec_tags_nopanic l : forall m, Forall (fun p => In 61 p) l -> dec_tags m l <> Panic.
Proof.
  induction l as [|kv l IH]; intros m HF; [discriminate|]. inversion HF as [|? ? H HF']; subst. cbn [dec_tags].
  destruct (splitn2_some 61 kv H) as (p & q & ->). destruct (decode_string p); cbn [rbind]; [|discriminate].
  cbn [unwrap obind]. destruct (decode_string q); cbn [rbind]; [|discriminate]. now apply IH.
Qed.
Lemma split_kv_inv s a b : split_key_value s = Some (a, b) -> b = tl s /\ (s = [] -> False) /\ a = firstn 1 s.
Proof.
  unfold split_key_value. destruct s as [|x [|y s]]; cbn [length].
  - discriminate.
  - destruct (_ =? _)%nat; [|discriminate]. intros [= <- <-]. repeat split; discriminate.
  - change (x :: y :: s) with ([x] ++ [y] ++ s). rewrite !utf8_app, !app_length.
    change (utf8 [x]) with (utf8_char x ++ []). change (utf8 [y]) with (utf8_char y ++ []). rewrite !app_nil_r.
    pose proof (utf8_char_len x). pose proof (utf8_char_len y). replace (_ =? _)%nat with false by lia.
    cbn [app]. destruct (_ =? _)%nat; [|discriminate]. intros [= <- <-]. repeat split; discriminate.
Qed.
Lemma dec_meta_nopanic items : (7 <= length items)%nat -> dec_meta items <> Panic.
Proof.
  intros H. do 7 (destruct items as [|? items]; [cbn in H; lia|]). unfold dec_meta, item.
  cbn [nth_error opt_map unwrap obind].
  repeat match goal with
  | |- context [parse_i64 ?x] => destruct (parse_i64 x); cbn [rbind]; [|discriminate]
  | |- context [parse_u32 ?x] => destruct (parse_u32 x); cbn [rbind]; [|discriminate]
  end. discriminate.
Qed.

(** ** C53 *)

Section C53.
Variable C : Type.
Variable parse_lon parse_lat : str -> option C.

(** The texts of a line: letter and value of each field, separated by single
    spaces; the user is written as given. *)
Definition meta_items (kind : string) (m : ometa) (tags : list (str * str)) : list str :=
  [lit kind ++ show_int (om_id m); lit "v" ++ show_uint (om_version m);
   (if om_deleted m then lit "dD" else lit "dV"); lit "c" ++ show_uint (om_changeset m);
   lit "t" ++ om_timestamp m; lit "i" ++ show_uint (om_uid m); lit "u" ++ om_user m;
   lit "T" ++ encode_tags tags].
Definition node_line m tags (lon lat : str) : str :=
  join (lit " ") (meta_items "n" m tags ++ [lit "x" ++ lon; lit "y" ++ lat]).
Definition way_line m tags nodes : str :=
  join (lit " ") (meta_items "w" m tags ++ [lit "N" ++ encode_way_nodes nodes]).
Definition relation_line m tags members : str :=
  join (lit " ") (meta_items "r" m tags ++ [lit "M" ++ encode_members members]).

Definition meta_ok (m : ometa) : Prop :=
  in_i64 (om_id m) /\ in_u32 (om_version m) /\ in_u32 (om_changeset m) /\ in_u32 (om_uid m)
  /\ ~ In (chr " ") (om_timestamp m) /\ ~ In (chr " ") (om_user m).
Definition tags_ok (tags : list (str * str)) : Prop :=
  NoDup (map fst tags) /\ forall k v, In (k, v) tags -> ~ In (chr "%") k /\ ~ In (chr "%") v.
(** The text of a coordinate: empty for none. *)
Definition coord_text (parse : str -> option C) (t : str) (c : option C) : Prop :=
  (t = [] /\ c = None) \/ (t <> [] /\ ~ In (chr " ") t /\ c <> None /\ parse t = c).

Lemma items_split (l : list (Z * str)) : l <> [] ->
  Forall (fun p => 0 <= fst p < 128 /\ fst p <> 32 /\ ~ In 32 (snd p)) l ->
  rmapM (fun s => Ret (split_key_value s)) (split_on 32 (join [32] (map (fun p => fst p :: snd p) l)))
  = Ret (Some (map (fun p => ([fst p], snd p)) l)).
Proof.
  intros Hn HF. rewrite split_on_join.
  - apply rmapM_ok, Forall2_map_l. clear Hn. induction HF as [|[a s] l (H1 & H2 & H3) HF IH]; constructor; [|exact IH].
    cbn [fst snd] in *. now rewrite split_kv.
  - destruct l; [congruence|discriminate].
  - apply Forall_forall. intros s Hs. apply in_map_iff in Hs. destruct Hs as ([a r] & <- & Hi).
    rewrite Forall_forall in HF. destruct (HF _ Hi) as (H1 & H2 & H3). cbn [fst snd In] in *. intros [H|H]; [lia|tauto].
Qed.

(** The items of the common fields as letter and value. *)
Definition mi (k : Z) (m : ometa) (tags : list (str * str)) : list (Z * str) :=
  [(k, show_int (om_id m)); (118, show_uint (om_version m)); (100, if om_deleted m then [68] else [86]);
   (99, show_uint (om_changeset m)); (116, om_timestamp m); (105, show_uint (om_uid m)); (117, om_user m);
   (84, encode_tags tags)].

Lemma mi_items kind m tags : lit kind = [chr kind] ->
  meta_items kind m tags = map (fun p => fst p :: snd p) (mi (chr kind) m tags).
Proof. intros H. unfold meta_items, mi. rewrite H. cbn [map fst snd app lit]. destruct (om_deleted m); reflexivity. Qed.

Lemma mi_ok k m tags : meta_ok m -> 0 <= k < 128 -> k <> 32 ->
  Forall (fun p => 0 <= fst p < 128 /\ fst p <> 32 /\ ~ In 32 (snd p)) (mi k m tags).
Proof.
  intros (H1 & H2 & H3 & H4 & H5 & H6) Hk Hk2. unfold in_u32 in *.
  assert (D : ~ is_digit 32) by (unfold is_digit; lia).
  repeat (apply Forall_cons || apply Forall_nil); cbn [fst snd]; (split; [lia|split; [lia|]]).
  - now apply show_int_no.
  - apply show_uint_no; [lia|exact D].
  - destruct (om_deleted m); cbn [In]; lia.
  - apply show_uint_no; [lia|exact D].
  - exact H5.
  - apply show_uint_no; [lia|exact D].
  - exact H6.
  - apply encode_tags_chars; [lia|lia|unfold special; lia].
Qed.

Lemma dec_meta_mi k m tags rest : meta_ok m ->
  dec_meta (map (fun p => ([fst p], snd p)) (mi k m tags ++ rest)) = Ret (Some m).
Proof.
  intros (H1 & H2 & H3 & H4 & H5 & H6). unfold mi, dec_meta, item. cbn [app map nth_error opt_map unwrap obind fst snd].
  rewrite parse_show_i64 by exact H1. cbn [rbind]. rewrite parse_show_u32 by exact H2. cbn [rbind].
  rewrite parse_show_u32 by exact H3. cbn [rbind]. rewrite parse_show_u32 by exact H4. cbn [rbind].
  destruct m as [i v d cs ts u us]. cbn [om_deleted om_id om_version om_changeset om_timestamp om_uid om_user]. destruct d; reflexivity.
Qed.

Lemma coord_ok parse t c : coord_text parse t c -> dec_coord parse t = Ret (Some c) /\ ~ In 32 t.
Proof.
  intros [[-> ->]|(Hn & H32 & Hc & Hp)]; [split; [reflexivity|easy]|]. split; [|exact H32].
  unfold dec_coord. destruct t; [congruence|]. rewrite Hp. destruct c; [reflexivity|congruence].
Qed.

Lemma tags_ok_dec tags : tags_ok tags -> decode_tags (encode_tags tags) = Ret (Some tags).
Proof.
  intros [Hd H]. apply decode_tags_encoded; [|exact Hd]. apply Forall_forall. intros [k v] Hi. exact (H k v Hi).
Qed.

(** Full statement: every line in the OPL format, in which users, roles, keys and
    values are all percent-encoded.  Proved for lines whose user and roles are the
    texts themselves, with keys and values free of '%'. *)
Theorem C53_node_partial : forall m tags lont latt lon lat,
  meta_ok m -> tags_ok tags -> coord_text parse_lon lont lon -> coord_text parse_lat latt lat ->
  decode_line parse_lon parse_lat (node_line m tags lont latt) = Ret (Some (ONode m tags lon lat)).
Proof.
  intros m tags lont latt lon lat Hm Ht Hlon Hlat.
  apply coord_ok in Hlon, Hlat. destruct Hlon as [Dlon Nlon], Hlat as [Dlat Nlat].
  unfold decode_line, node_line. rewrite (mi_items "n") by reflexivity. change (chr "n") with 110. change (lit " ") with [32].
  change [lit "x" ++ lont; lit "y" ++ latt] with (map (fun p : Z * str => fst p :: snd p) [(120, lont); (121, latt)]).
  rewrite <- map_app. rewrite items_split.
  - cbn [rbind]. pose proof (dec_meta_mi 110 m tags [(120, lont); (121, latt)] Hm) as Dm.
    unfold dec_items. unfold mi at 1. cbn [map app fst snd]. change (str_eqb [110] [110]) with true. cbv iota.
    unfold item at 1 2 3. cbn [mi map app nth_error opt_map unwrap obind fst snd].
    rewrite tags_ok_dec by exact Ht. cbn [rbind]. rewrite Dlon. cbn [rbind]. rewrite Dlat. cbn [rbind].
    unfold mi in Dm. cbn [map app fst snd] in Dm. rewrite Dm. reflexivity.
  - discriminate.
  - apply Forall_app. split; [apply mi_ok; [exact Hm|lia|lia]|].
    repeat constructor; cbn [fst snd]; try lia; assumption.
Qed.

Theorem C53_way_partial : forall m tags nodes,
  meta_ok m -> tags_ok tags -> nodes <> [] -> Forall in_i64 nodes ->
  decode_line parse_lon parse_lat (way_line m tags nodes) = Ret (Some (OWay m tags nodes)).
Proof.
  intros m tags nodes Hm Ht Hn Hi.
  unfold decode_line, way_line. rewrite (mi_items "w") by reflexivity. change (chr "w") with 119. change (lit " ") with [32].
  change [lit "N" ++ encode_way_nodes nodes] with (map (fun p : Z * str => fst p :: snd p) [(78, encode_way_nodes nodes)]).
  rewrite <- map_app. rewrite items_split.
  - cbn [rbind]. pose proof (dec_meta_mi 119 m tags [(78, encode_way_nodes nodes)] Hm) as Dm.
    unfold dec_items. unfold mi at 1. cbn [map app fst snd]. change (str_eqb [119] [110]) with false.
    change (str_eqb [119] [119]) with true. cbv iota.
    unfold item at 1 2. cbn [mi map app nth_error opt_map unwrap obind fst snd].
    rewrite tags_ok_dec by exact Ht. cbn [rbind]. rewrite decode_way_nodes_encoded by assumption. cbn [rbind].
    unfold mi in Dm. cbn [map app fst snd] in Dm. rewrite Dm. reflexivity.
  - discriminate.
  - apply Forall_app. split; [apply mi_ok; [exact Hm|lia|lia]|].
    repeat constructor; cbn [fst snd]; try lia. unfold encode_way_nodes. intros H. apply in_join in H.
    destruct H as [[H|[]]|(s & Hs & H)]; [lia|]. apply in_map_iff in Hs. destruct Hs as (n & <- & _).
    destruct H as [H|H]; [lia|]. now apply show_int_no in H; unfold is_digit; try lia.
Qed.

Theorem C53_relation_partial : forall m tags members,
  meta_ok m -> tags_ok tags -> members <> [] ->
  (forall t id role, In (t, id, role) members ->
     (t = chr "n" \/ t = chr "w" \/ t = chr "r") /\ in_i64 id /\ ~ In (chr ",") role /\ ~ In (chr " ") role) ->
  decode_line parse_lon parse_lat (relation_line m tags members) = Ret (Some (ORel m tags members)).
Proof.
  intros m tags ms Hm Ht Hn Hi.
  unfold decode_line, relation_line. rewrite (mi_items "r") by reflexivity. change (chr "r") with 114. change (lit " ") with [32].
  change [lit "M" ++ encode_members ms] with (map (fun p : Z * str => fst p :: snd p) [(77, encode_members ms)]).
  rewrite <- map_app. rewrite items_split.
  - cbn [rbind]. pose proof (dec_meta_mi 114 m tags [(77, encode_members ms)] Hm) as Dm.
    unfold dec_items. unfold mi at 1. cbn [map app fst snd]. change (str_eqb [114] [110]) with false.
    change (str_eqb [114] [119]) with false. change (str_eqb [114] [114]) with true. cbv iota.
    unfold item at 1 2. cbn [mi map app nth_error opt_map unwrap obind fst snd].
    rewrite tags_ok_dec by exact Ht. cbn [rbind].
    rewrite C52_members_partial by (first [exact Hn | intros t id role H; destruct (Hi t id role H) as (A & B & D & _); auto]). cbn [rbind].
    unfold mi in Dm. cbn [map app fst snd] in Dm. rewrite Dm. reflexivity.
  - discriminate.
  - apply Forall_app. split; [apply mi_ok; [exact Hm|lia|lia]|].
    repeat constructor; cbn [fst snd]; try lia. unfold encode_members. intros H. apply in_join in H.
    destruct H as [[H|[]]|(s & Hs & H)]; [lia|]. apply in_map_iff in Hs. destruct Hs as ([[t id] role] & <- & Hin).
    destruct (Hi t id role Hin) as (A & B & D & E). cbn [In] in H. rewrite !in_app_iff in H. cbn [In] in H.
    destruct H as [H|[H|[[H|[]]|H]]]; [cbn in A; lia| |lia|exact (E H)].
    now apply show_int_no in H; unfold is_digit; try lia.
Qed.

(** The user of a line in the OPL format is not decoded. *)
Theorem C53_user_refuted : forall m tags lon lat user,
  meta_ok m -> tags_ok tags -> coord_text parse_lon lon None -> coord_text parse_lat lat None ->
  (exists c, In c user /\ special c) -> om_user m = encode_string user ->
  exists m', decode_line parse_lon parse_lat (node_line m tags lon lat) = Ret (Some (ONode m' tags None None))
    /\ om_user m' <> user.
Proof.
  intros m tags lon lat user Hm Ht Hlon Hlat (c & Hc & Hs) Hu. exists m.
  split; [now apply C53_node_partial|]. rewrite Hu. intros E. rewrite <- E in Hc. now apply encode_no_special in Hc.
Qed.

(** ** C54 *)

(** Full statement: no line panics.  Proved for lines with all their fields (ten for
    a node, nine for a way or relation), an '=' in every tag and an '@' in every
    member. *)
Theorem C54_no_panic_partial : forall line items, parts (chr " ") line items ->
  (forall first rest, items = first :: rest ->
     (hd_error first = Some (chr "n") -> (10 <= length items)%nat)
     /\ (hd_error first = Some (chr "w") \/ hd_error first = Some (chr "r") -> (9 <= length items)%nat)
     /\ (hd_error first = Some (chr "r") ->
         forall ms ps, nth_error items 8 = Some ms -> parts (chr ",") (tl ms) ps -> Forall (fun p => In (chr "@") (tl p)) ps)) ->
  (forall t ps, nth_error items 7 = Some t -> parts (chr ",") (tl t) ps -> tl t = [] \/ Forall (fun p => In (chr "=") p) ps) ->
  decode_line parse_lon parse_lat line <> Panic.
Proof.
  intros line items (Hn & HF & ->) Hshape Htags. unfold decode_line. change (chr " ") with 32 in *. rewrite split_on_join by assumption.
  assert (E : rmapM (fun s => Ret (split_key_value s)) items = Ret None
    \/ exists its, rmapM (fun s => Ret (split_key_value s)) items = Ret (Some its)
         /\ Forall2 (fun s kv => split_key_value s = Some kv) items its).
  { clear. induction items as [|s l IH]; [right; exists []; split; [reflexivity|constructor]|].
    cbn [rmapM]. fold (rmapM (fun s => Ret (split_key_value s))). destruct (split_key_value s) as [kv|] eqn:E; cbn [rbind]; [|now left].
    destruct IH as [->|(its & -> & H)]; cbn [rbind]; [now left|right; eexists; split; [reflexivity|constructor; assumption]]. }
  destruct E as [->|(its & -> & HF2)]; cbn [rbind]; [discriminate|].
  assert (Hlen : length items = length its) by (clear -HF2; induction HF2; cbn [length]; congruence).
  assert (Hnth : forall i kv, nth_error its i = Some kv -> exists s, nth_error items i = Some s /\ split_key_value s = Some kv).
  { clear -HF2. induction HF2 as [|s kv l its H1 H2 IH]; intros [|i] kv' H; cbn [nth_error] in *; try discriminate.
    - injection H as <-. eauto.
    - eauto. }
  destruct items as [|first rest]; [congruence|]. destruct (Hshape first rest eq_refl) as (S1 & S2 & S3). clear Hshape.
  assert (DT : forall x, item its 7 = Ret x -> decode_tags x <> Panic).
  { intros x Hx. unfold item in Hx. destruct (nth_error its 7) as [[a b]|] eqn:E7; [|discriminate]. cbn in Hx. injection Hx as ->.
    destruct (Hnth 7%nat _ E7) as (t & Ht & Hkv). apply split_kv_inv in Hkv. destruct Hkv as (-> & _).
    unfold decode_tags. destruct (tl t) as [|y r] eqn:Et; [discriminate|]. rewrite <- Et.
    destruct (Htags t (split_on 44 (tl t)) Ht (parts_split 44 (tl t))) as [H|H]; [congruence|]. now apply dec_tags_nopanic. }
  assert (IT : forall i, (i < length its)%nat -> exists x, item its i = Ret x).
  { intros i Hi. unfold item. destruct (nth_error its i) eqn:E; [eexists; reflexivity|]. apply nth_error_None in E. lia. }
  destruct its as [|[k v] its]; [discriminate|]. inversion HF2 as [|? ? ? ? Hkv HF2']; subst.
  apply split_kv_inv in Hkv. destruct Hkv as (_ & Hne & Hk).
  destruct first as [|c first]; [exfalso; auto|]. cbn [firstn] in Hk. cbn [hd_error] in *. subst k.
  unfold dec_items. remember (([c], v) :: its) as L eqn:EL.
  destruct (str_eqb [c] [110]) eqn:Ec1.
  { apply str_eqb_eq in Ec1. injection Ec1 as ->. specialize (S1 eq_refl). rewrite Hlen in S1.
    destruct (IT 7%nat ltac:(lia)) as (x7 & E7). rewrite E7. cbn [obind].
    pose proof (DT _ E7). destruct (decode_tags x7) as [[tg|]|]; cbn [rbind]; [|discriminate|congruence].
    destruct (IT 8%nat ltac:(lia)) as (x8 & E8). rewrite E8. cbn [obind].
    destruct (dec_coord parse_lon x8) as [[lo|]|] eqn:D1; cbn [rbind]; [|discriminate|unfold dec_coord in D1; destruct x8; [discriminate|destruct (parse_lon _); discriminate]].
    destruct (IT 9%nat ltac:(lia)) as (x9 & E9). rewrite E9. cbn [obind].
    destruct (dec_coord parse_lat x9) as [[la|]|] eqn:D2; cbn [rbind]; [|discriminate|unfold dec_coord in D2; destruct x9; [discriminate|destruct (parse_lat _); discriminate]].
    pose proof (dec_meta_nopanic L ltac:(lia)) as Dm. destruct (dec_meta L) as [[m|]|]; cbn [rbind]; [discriminate|discriminate|congruence]. }
  destruct (str_eqb [c] [119]) eqn:Ec2.
  { apply str_eqb_eq in Ec2. injection Ec2 as ->. specialize (S2 (or_introl eq_refl)). rewrite Hlen in S2.
    destruct (IT 7%nat ltac:(lia)) as (x7 & E7). rewrite E7. cbn [obind].
    pose proof (DT _ E7). destruct (decode_tags x7) as [[tg|]|]; cbn [rbind]; [|discriminate|congruence].
    destruct (IT 8%nat ltac:(lia)) as (x8 & E8). rewrite E8. cbn [obind].
    assert (Dn : decode_way_nodes x8 <> Panic) by (apply rmapM_nopanic; discriminate).
    destruct (decode_way_nodes x8) as [[ns|]|]; cbn [rbind]; [|discriminate|congruence].
    pose proof (dec_meta_nopanic L ltac:(lia)) as Dm. destruct (dec_meta L) as [[m|]|]; cbn [rbind]; [discriminate|discriminate|congruence]. }
  destruct (str_eqb [c] [114]) eqn:Ec3; [|discriminate].
  apply str_eqb_eq in Ec3. injection Ec3 as ->. specialize (S2 (or_intror eq_refl)). rewrite Hlen in S2.
  destruct (IT 7%nat ltac:(lia)) as (x7 & E7). rewrite E7. cbn [obind].
  pose proof (DT _ E7). destruct (decode_tags x7) as [[tg|]|]; cbn [rbind]; [|discriminate|congruence].
  destruct (IT 8%nat ltac:(lia)) as (x8 & E8). rewrite E8. cbn [obind].
  assert (Dn : decode_members x8 <> Panic).
  { unfold item in E8. destruct (nth_error L 8) as [[a b]|] eqn:En; [|discriminate]. cbn in E8. injection E8 as ->.
    destruct (Hnth 8%nat _ En) as (ms & Hms & Hkv). apply split_kv_inv in Hkv. destruct Hkv as (-> & _).
    specialize (S3 eq_refl ms _ Hms (parts_split 44 (tl ms))). apply rmapM_nopanic. intros p Hp.
    rewrite Forall_forall in S3. specialize (S3 p Hp). unfold decode_member.
    destruct (split_key_value p) as [[ot rs]|] eqn:Ekv; cbn [rbind]; [|discriminate].
    apply split_kv_inv in Ekv. destruct Ekv as (-> & Hne' & ->). destruct p as [|y p]; [exfalso; auto|]. cbn [firstn hd_error rbind].
    destruct (splitn2_some 64 (tl (y :: p)) S3) as (u & w & ->). cbn [unwrap obind].
    destruct (parse_i64 u); cbn [rbind]; discriminate. }
  destruct (decode_members x8) as [[ns|]|]; cbn [rbind]; [|discriminate|congruence].
  pose proof (dec_meta_nopanic L ltac:(lia)) as Dm. destruct (dec_meta L) as [[m|]|]; cbn [rbind]; [discriminate|discriminate|congruence].
Qed.

(** A line that ends after its id panics. *)
Theorem C54_short_refuted : forall s, ~ In (chr " ") s ->
  decode_line parse_lon parse_lat (lit "n" ++ s) = Panic
  /\ decode_line parse_lon parse_lat (lit "w" ++ s) = Panic
  /\ decode_line parse_lon parse_lat (lit "r" ++ s) = Panic.
Proof.
  intros s Hs. change (chr " ") with 32 in Hs.
  assert (E : forall c, 0 <= c < 128 -> c <> 32 ->
    rmapM (fun s => Ret (split_key_value s)) (split_on 32 (c :: s)) = Ret (Some [([c], s)])).
  { intros c Hc Hc2. rewrite split_on_nosep by (cbn [In]; intros [H|H]; [lia|tauto]). cbn [rmapM]. now rewrite split_kv. }
  unfold decode_line. cbn [lit app]. repeat split; (rewrite E; [reflexivity|cbn; lia|cbn; lia]).
Qed.

(** So do a tag without '=' and a member without '@'. *)
Theorem C54_tag_refuted :
  decode_line parse_lon parse_lat (lit "n1 v1 dV c1 t i1 u Tk x y") = Panic
  /\ decode_line parse_lon parse_lat (lit "r1 v1 dV c1 t i1 u T Mn1") = Panic.
Proof. split; reflexivity. Qed.

(** ** C66 *)

(** A line is as it should be: its own trimmed text, without line break, decoded to
    an object. *)
Definition good_line (l : str) (o : oobj C) : Prop :=
  valid_str l /\ ~ In 10 l /\ trim l = l /\ decode_line parse_lon parse_lat l = Ret (Some o).

Lemma trim_start_idem_head l : trim l = l -> l <> [] -> trim (l ++ [10]) = l.
Proof.
  intros H Hn. unfold trim in *.
  assert (Hs : trim_start l = l).
  { assert (Hlen : forall s, (length (trim_start s) <= length s)%nat).
    { induction s as [|c s IH]; cbn [trim_start]; [lia|]. destruct (is_ws c); cbn [length]; lia. }
    apply (f_equal (@length Z)) in H. rewrite rev_length in H.
    pose proof (Hlen (rev (trim_start l))) as H2. rewrite rev_length in H2. pose proof (Hlen l).
    assert (length (trim_start l) = length l) by lia. destruct l as [|c l]; [reflexivity|].
    cbn [trim_start] in *. destruct (is_ws c); [|reflexivity]. pose proof (Hlen l). cbn [length] in *. lia. }
  assert (Hs' : trim_start (l ++ [10]) = l ++ [10]).
  { destruct l as [|c l]; [congruence|]. cbn [app trim_start] in *. destruct (is_ws c) eqn:E; [|reflexivity].
    exfalso. assert (Hlen : forall s, (length (trim_start s) <= length s)%nat).
    { induction s as [|x s IH]; cbn [trim_start]; [lia|]. destruct (is_ws x); cbn [length]; lia. }
    pose proof (Hlen l). rewrite Hs in H0. cbn [length] in H0. lia. }
  rewrite Hs', trim_end_nl. rewrite Hs in H. exact H.
Qed.

Lemma good_next l o r : good_line l o -> opl_next parse_lon parse_lat (utf8 (l ++ [10]) ++ r) = (Ret (Some o), r).
Proof.
  intros (Hv & H10 & Ht & Hd). unfold opl_next. rewrite utf8_app, <- app_assoc. change (utf8 [10]) with [10].
  cbn [app]. rewrite take_line_app by (apply utf8_no10; assumption).
  change [10] with (utf8 [10]). rewrite <- utf8_app. rewrite utf8_decode_encode.
  - rewrite trim_start_idem_head; [now rewrite Hd|exact Ht|]. intros ->. discriminate Hd.
  - unfold valid_str. apply Forall_app. split; [exact Hv|]. constructor; [unfold scalar; lia|constructor].
Qed.

Lemma good_all ls os : Forall2 good_line ls os -> forall fuel rest,
  (length (flat_map (fun l => utf8 (l ++ [10%Z])) ls) <= fuel)%nat ->
  opl_all parse_lon parse_lat (S fuel) (flat_map (fun l => utf8 (l ++ [10])) ls ++ rest)
  = do l <- opl_all parse_lon parse_lat (S fuel - length ls) rest; Ret (os ++ l).
Proof.
  intros HF. induction HF as [|l o ls os H1 HF IH]; intros fuel rest Hf.
  - cbn [flat_map app length]. rewrite Nat.sub_0_r. destruct (opl_all _ _ _ _); reflexivity.
  - cbn [flat_map] in *. rewrite <- app_assoc. change (opl_all parse_lon parse_lat (S fuel)) with
      (fun b => let (res, r) := opl_next parse_lon parse_lat b in do o <- res;
        match o with None => Ret [] | Some o => do l <- opl_all parse_lon parse_lat fuel r; Ret (o :: l) end).
    cbv beta. rewrite good_next with (o := o) by exact H1. cbn [obind].
    rewrite utf8_app, app_length, app_length in Hf. change (utf8 [10]) with [10] in Hf. cbn [length] in Hf.
    destruct fuel as [|fuel]; [lia|]. rewrite IH by lia. cbn [length]. replace (S (S fuel) - S (length ls))%nat with (S fuel - length ls)%nat by lia.
    destruct (opl_all _ _ _ rest); reflexivity.
Qed.

Lemma nl_count ls : (length ls <= length (flat_map (fun l => utf8 (l ++ [10%Z])) ls))%nat.
Proof.
  induction ls as [|l ls IH]; [reflexivity|]. cbn [flat_map length]. rewrite app_length, utf8_app, app_length.
  change (utf8 [10]) with [10]. cbn [length]. lia.
Qed.

(** Full statement: every object in the file is yielded, in order.  Proved for files
    of good lines. *)
Theorem C66_file_partial : forall ls os, Forall2 good_line ls os ->
  opl_objects parse_lon parse_lat (flat_map (fun l => utf8 (l ++ lit (String (Ascii.ascii_of_nat 10) EmptyString))) ls) = Ret os.
Proof.
  intros ls os HF. change (lit (String (Ascii.ascii_of_nat 10) EmptyString)) with [10].
  unfold opl_objects. rewrite <- (app_nil_r (flat_map _ ls)) at 2.
  rewrite (good_all ls os HF) by lia. pose proof (nl_count ls).
  rewrite Nat.sub_succ_l by exact H. cbn [opl_all opl_next take_line].
  change (utf8_decode []) with (Some (@nil Z)). cbv iota. change (decode_line parse_lon parse_lat (trim [])) with (@Ret (option (oobj C)) None).
  cbn [obind]. now rewrite app_nil_r.
Qed.

(** A blank line, or one that cannot be decoded, silently ends the iteration: the
    objects after it are lost. *)
Theorem C66_bad_line_refuted : forall ls os bad rest, Forall2 good_line ls os -> valid_str bad -> ~ In 10 bad ->
  decode_line parse_lon parse_lat (trim (bad ++ [10])) = Ret None ->
  opl_objects parse_lon parse_lat
    (flat_map (fun l => utf8 (l ++ [10])) ls ++ utf8 (bad ++ [10]) ++ rest) = Ret os.
Proof.
  intros ls os bad rest HF Hv H10 Hb. unfold opl_objects. rewrite app_length.
  rewrite (good_all ls os HF) by lia. pose proof (nl_count ls).
  rewrite Nat.sub_succ_l by lia. cbn [opl_all]. unfold opl_next. rewrite utf8_app, <- app_assoc. change (utf8 [10]) with [10].
  cbn [app]. rewrite take_line_app by (apply utf8_no10; assumption). change [10] with (utf8 [10]). rewrite <- utf8_app.
  rewrite utf8_decode_encode.
  - rewrite Hb. cbn [obind]. now rewrite app_nil_r.
  - unfold valid_str. apply Forall_app. split; [exact Hv|]. constructor; [unfold scalar; lia|constructor].
Qed.

End C53.
Print Assumptions C53_node_partial.
Print Assumptions C53_way_partial.
Print Assumptions C53_relation_partial.
Print Assumptions C53_user_refuted.
Print Assumptions C54_no_panic_partial.
Print Assumptions C54_short_refuted.
Print Assumptions C54_tag_refuted.
Print Assumptions C66_file_partial.
Print Assumptions C66_bad_line_refuted.

(** Examples, with a coordinate parser for whole degrees. *)
Definition ex_meta : ometa := OM 17 2 false 5 (lit "2020-01-01T00:00:00Z") 9 (lit "jo").
Example C53_ex :
  meta_ok ex_meta /\ tags_ok [(lit "name", lit "a b")] /\ coord_text Z parse_i64 (lit "12") (Some 12)
  /\ node_line ex_meta [(lit "name", lit "a b")] (lit "12") (lit "") = lit "n17 v2 dV c5 t2020-01-01T00:00:00Z i9 ujo Tname=a%20%b x12 y"
  /\ decode_line parse_i64 parse_i64 (node_line ex_meta [(lit "name", lit "a b")] (lit "12") (lit ""))
     = Ret (Some (ONode ex_meta [(lit "name", lit "a b")] (Some 12) None)).
Proof.
  split; [|split; [|split; [|split; vm_compute; reflexivity]]].
  - unfold meta_ok, in_i64, in_u32. cbn. repeat split; try lia; intros H; repeat (destruct H as [H|H]; [lia|]); exact H.
  - split; [repeat constructor; easy|]. intros k v [[= <- <-]|[]]. cbn. split; intros H; repeat (destruct H as [H|H]; [lia|]); exact H.
  - right. repeat split; try discriminate. cbn. lia.
Qed.
Lemma parts_unique c s ps : parts c s ps -> ps = split_on c s.
Proof. intros (H1 & H2 & ->). symmetry. now apply split_on_join. Qed.
(** A line that meets the hypotheses of C54_no_panic_partial. *)
Example C54_ex :
  let line := lit "r1 v1 dV c1 t i1 u Ta=b,c=d Mn1@,w2@x" in let items := split_on 32 line in
  parts (chr " ") line items
  /\ (forall first rest, items = first :: rest ->
     (hd_error first = Some (chr "n") -> (10 <= length items)%nat)
     /\ (hd_error first = Some (chr "w") \/ hd_error first = Some (chr "r") -> (9 <= length items)%nat)
     /\ (hd_error first = Some (chr "r") ->
         forall ms ps, nth_error items 8 = Some ms -> parts (chr ",") (tl ms) ps -> Forall (fun p => In (chr "@") (tl p)) ps))
  /\ (forall t ps, nth_error items 7 = Some t -> parts (chr ",") (tl t) ps -> tl t = [] \/ Forall (fun p => In (chr "=") p) ps)
  /\ decode_line parse_i64 parse_i64 line
     = Ret (Some (ORel (OM 1 1 false 1 [] 1 []) [(lit "a", lit "b"); (lit "c", lit "d")] [(chr "n", 1, []); (chr "w", 2, lit "x")])).
Proof.
  cbv zeta. split; [apply parts_split|]. split; [|split; [|vm_compute; reflexivity]].
  - intros first rest E. split; [intros H; exfalso; injection E as <- _; discriminate H|]. split; [intros _; vm_compute; lia|].
    intros _ ms ps E8 Hp. injection E8 as <-. apply parts_unique in Hp. subst ps.
    repeat constructor; vm_compute; tauto.
  - intros t ps E7 Hp. injection E7 as <-. apply parts_unique in Hp. subst ps. right.
    repeat constructor; vm_compute; tauto.
Qed.
Example C66_ex :
  let l := way_line ex_meta [] [4; 5] in
  good_line Z parse_i64 parse_i64 l (OWay ex_meta [] [4; 5])
  /\ opl_objects parse_i64 parse_i64 (utf8 l ++ [10] ++ utf8 l ++ [10]) = Ret [OWay ex_meta [] [4; 5]; OWay ex_meta [] [4; 5]]
  /\ opl_objects parse_i64 parse_i64 (utf8 l ++ [10; 10] ++ utf8 l ++ [10]) = Ret [OWay ex_meta [] [4; 5]].
Proof.
  cbv zeta. split; [|split; vm_compute; reflexivity]. split; [|split; [|split; vm_compute; reflexivity]].
  - apply Forall_forall. intros c Hc. apply scalarb_iff.
    assert (F : forallb scalarb (way_line ex_meta [] [4; 5]) = true) by (vm_compute; reflexivity).
    rewrite forallb_forall in F. exact (F c Hc).
  - vm_compute. intros H. repeat (destruct H as [H|H]; [discriminate|]). exact H.
Qed.
