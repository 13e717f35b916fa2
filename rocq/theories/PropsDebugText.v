(** C120, continued: the words of the Debug texts. *)
From Coq Require Import String ZArith List Bool Lia.
From Coq Require Import ZifyBool ZifyNat.
From Verif Require Import Base SpecNum Ints Timestamp Obj Coord CoordFacts CoordDebug PropsCoordDebug DebugText PropsDebug.
Import ListNotations.
Open Scope Z_scope.

(** ** Specification *)

(** The value of a hexadecimal number. *)
Definition hex_digit (c : char) : option Z :=
  if (48 <=? c) && (c <=? 57) then Some (c - 48) else if (97 <=? c) && (c <=? 102) then Some (c - 87) else None.
Fixpoint hex_value (n : Z) (s : str) : option Z :=
  match s with
  | [] => Some n
  | c :: r => match hex_digit c with Some d => hex_value (16 * n + d) r | None => None end
  end.

(** What is between the quotes of a Rust string literal that denotes a text. *)
Inductive literal : str -> str -> Prop :=
| lit_end : literal [] []
| lit_plain c b s : c <> 34 -> c <> 92 -> c <> 13 -> literal b s -> literal (c :: b) (c :: s)
| lit_escape e c b s :
    In (e, c) [(110, 10); (114, 13); (116, 9); (92, 92); (48, 0); (34, 34)] -> literal b s -> literal (92 :: e :: b) (c :: s)
| lit_unicode h c b s : (1 <= length h <= 6)%nat -> hex_value 0 h = Some c -> literal b s ->
    literal (lit "\u{" ++ h ++ lit "}" ++ b) (c :: s).
Definition literals (text : str -> str) : Prop :=
  forall s, valid_str s -> exists b, text s = [34] ++ b ++ [34] /\ literal b s.

Fixpoint between (sep : str) (l : list str) : str :=
  match l with [] => [] | [x] => x | x :: r => x ++ sep ++ between sep r end.

(** The Debug text on one line. *)
Section Short.
Variable text : str -> str.
Definition short_option {A} (f : A -> str) (o : option A) : str :=
  match o with None => lit "None" | Some x => lit "Some(" ++ f x ++ lit ")" end.
Definition short_list {A} (f : A -> str) (l : list A) : str := lit "[" ++ between (lit ", ") (map f l) ++ lit "]".
Definition short_tag (t : str * str) : str := lit "(" ++ text (fst t) ++ lit ", " ++ text (snd t) ++ lit ")".
Definition short_place (p : latlon) : str := lit "(" ++ debug_coord (fst p) ++ lit ", " ++ debug_coord (snd p) ++ lit ")".
Definition letter (t : objtype) : str := match t with TNode => lit "n" | TWay => lit "w" | TRelation => lit "r" end.
Definition short_member (m : member) : str :=
  let '(t, i, r) := m in lit "(" ++ letter t ++ lit ", " ++ show_int i ++ lit ", " ++ text r ++ lit ")".
Definition short_time (t : timestamp) : str :=
  match t with ISOString s => lit "ISOString(" ++ text s ++ lit ")" | EpochNumber n => lit "EpochNumber(" ++ show_int n ++ lit ")" end.
Definition short_meta (m : meta) : str :=
  lit "_id: " ++ show_int (m_id m)
  ++ lit ", _version: " ++ short_option show_int (m_version m)
  ++ lit ", _deleted: " ++ (if m_deleted m then lit "true" else lit "false")
  ++ lit ", _changeset_id: " ++ short_option show_int (m_changeset m)
  ++ lit ", _timestamp: " ++ short_option short_time (m_timestamp m)
  ++ lit ", _uid: " ++ short_option show_int (m_uid m)
  ++ lit ", _user: " ++ short_option text (m_user m).
Definition short_s (o : sobj) : str :=
  match o with
  | SNode n => lit "Node(StringNode { " ++ short_meta (sn_meta n) ++ lit ", _tags: " ++ short_list short_tag (sn_tags n)
      ++ lit ", _lat_lon: " ++ short_option short_place (sn_latlon n) ++ lit " })"
  | SWay w => lit "Way(StringWay { " ++ short_meta (sw_meta w) ++ lit ", _tags: " ++ short_list short_tag (sw_tags w)
      ++ lit ", _nodes: " ++ short_list show_int (sw_nodes w) ++ lit " })"
  | SRel r => lit "Relation(StringRelation { " ++ short_meta (sr_meta r) ++ lit ", _tags: " ++ short_list short_tag (sr_tags r)
      ++ lit ", _members: " ++ short_list short_member (sr_members r) ++ lit " })"
  end.
Definition short_a (ty : str) (o : aobj) : str :=
  match o with
  | ANode n => lit "Node(" ++ ty ++ lit "Node { " ++ short_meta (an_meta n) ++ lit ", _tags: " ++ short_option (short_list short_tag) (an_tags n)
      ++ lit ", _lat_lon: " ++ short_option short_place (an_latlon n) ++ lit " })"
  | AWay w => lit "Way(" ++ ty ++ lit "Way { " ++ short_meta (aw_meta w) ++ lit ", _tags: " ++ short_list short_tag (aw_tags w)
      ++ lit ", _nodes: " ++ short_list show_int (aw_nodes w) ++ lit " })"
  | ARel r => lit "Relation(" ++ ty ++ lit "Relation { " ++ short_meta (ar_meta r) ++ lit ", _tags: " ++ short_list short_tag (ar_tags r)
      ++ lit ", _members: " ++ short_list short_member (ar_members r) ++ lit " })"
  end.

(** The Debug text in lines: what is inside something is indented and ends in a comma. *)
Definition first_line (x : str) (ls : list str) : list str := match ls with [] => [x] | l :: r => (x ++ l) :: r end.
Fixpoint comma (ls : list str) : list str := match ls with [] => [] | [l] => [l ++ lit ","] | l :: r => l :: comma r end.
Definition inside (lss : list (list str)) : list str := map (fun l => lit "    " ++ l) (concat (map comma lss)).
Definition long_field (name : str) (ls : list str) : list str := first_line (name ++ lit ": ") ls.
Definition long_tuple (name : str) (lss : list (list str)) : list str := [name ++ lit "("] ++ inside lss ++ [lit ")"].
Definition long_struct (name : str) (lss : list (list str)) : list str := [name ++ lit " {"] ++ inside lss ++ [lit "}"].
Definition long_list {A} (f : A -> list str) (l : list A) : list str :=
  match l with [] => [lit "[]"] | _ => [lit "["] ++ inside (map f l) ++ [lit "]"] end.
Definition long_option {A} (f : A -> list str) (o : option A) : list str :=
  match o with None => [lit "None"] | Some x => long_tuple (lit "Some") [f x] end.
Definition long_int (n : Z) : list str := [show_int n].
Definition long_tag (t : str * str) : list str := long_tuple [] [[text (fst t)]; [text (snd t)]].
Definition long_place (p : latlon) : list str := long_tuple [] [[debug_coord (fst p)]; [debug_coord (snd p)]].
Definition long_member (m : member) : list str := let '(t, i, r) := m in long_tuple [] [[letter t]; [show_int i]; [text r]].
Definition long_time (t : timestamp) : list str :=
  match t with ISOString s => long_tuple (lit "ISOString") [[text s]] | EpochNumber n => long_tuple (lit "EpochNumber") [[show_int n]] end.
Definition long_meta (m : meta) : list (list str) :=
  [long_field (lit "_id") [show_int (m_id m)];
   long_field (lit "_version") (long_option long_int (m_version m));
   long_field (lit "_deleted") [if m_deleted m then lit "true" else lit "false"];
   long_field (lit "_changeset_id") (long_option long_int (m_changeset m));
   long_field (lit "_timestamp") (long_option long_time (m_timestamp m));
   long_field (lit "_uid") (long_option long_int (m_uid m));
   long_field (lit "_user") (long_option (fun s => [text s]) (m_user m))].
Definition long_s (o : sobj) : list str :=
  match o with
  | SNode n => long_tuple (lit "Node") [long_struct (lit "StringNode") (long_meta (sn_meta n)
      ++ [long_field (lit "_tags") (long_list long_tag (sn_tags n)); long_field (lit "_lat_lon") (long_option long_place (sn_latlon n))])]
  | SWay w => long_tuple (lit "Way") [long_struct (lit "StringWay") (long_meta (sw_meta w)
      ++ [long_field (lit "_tags") (long_list long_tag (sw_tags w)); long_field (lit "_nodes") (long_list long_int (sw_nodes w))])]
  | SRel r => long_tuple (lit "Relation") [long_struct (lit "StringRelation") (long_meta (sr_meta r)
      ++ [long_field (lit "_tags") (long_list long_tag (sr_tags r)); long_field (lit "_members") (long_list long_member (sr_members r))])]
  end.
Definition long_a (ty : str) (o : aobj) : list str :=
  match o with
  | ANode n => long_tuple (lit "Node") [long_struct (ty ++ lit "Node") (long_meta (an_meta n)
      ++ [long_field (lit "_tags") (long_option (long_list long_tag) (an_tags n)); long_field (lit "_lat_lon") (long_option long_place (an_latlon n))])]
  | AWay w => long_tuple (lit "Way") [long_struct (ty ++ lit "Way") (long_meta (aw_meta w)
      ++ [long_field (lit "_tags") (long_list long_tag (aw_tags w)); long_field (lit "_nodes") (long_list long_int (aw_nodes w))])]
  | ARel r => long_tuple (lit "Relation") [long_struct (ty ++ lit "Relation") (long_meta (ar_meta r)
      ++ [long_field (lit "_tags") (long_list long_tag (ar_tags r)); long_field (lit "_members") (long_list long_member (ar_members r))])]
  end.
End Short.

(** ** Proof *)

Lemma commas_between l : commas l = between (lit ", ") l.
Proof.
  destruct l as [|x l]; [reflexivity|]. revert x. induction l as [|y l IH]; intros x; [cbn; apply app_nil_r|].
  cbn [commas flat_map between] in *. rewrite <- IH. now rewrite <- app_assoc.
Qed.
Lemma between_cons x l : l <> [] -> between (lit ", ") (x :: l) = x ++ lit ", " ++ between (lit ", ") l.
Proof. now destruct l. Qed.

Section Proof.
Variable printable : char -> bool.
Notation text := (quoted printable).
Notation C := (compact printable).

Lemma c_option {A} (f : A -> dv) g o : (forall x, C (f x) = g x) -> C (d_option f o) = short_option g o.
Proof. intros H. destruct o as [x|]; [|reflexivity]. cbn [d_option compact map label]. unfold commas. cbn [flat_map opens closes]. rewrite H, ?app_nil_r. reflexivity. Qed.
Lemma c_list {A} (f : A -> dv) g l : (forall x, C (f x) = g x) -> C (d_list f l) = short_list g l.
Proof.
  intros H. unfold d_list, short_list. destruct l as [|x l]; [reflexivity|]. rewrite <- commas_between. cbn [compact map].
  cbn [opens closes label app]. rewrite map_map. rewrite H. f_equal. f_equal. f_equal. f_equal. apply map_ext. intros y. cbn. apply H.
Qed.

Lemma c_tag t : C (d_tag t) = short_tag text t.
Proof. unfold short_tag. cbn [compact d_tag map label]. unfold commas. cbn [flat_map opens closes app]. now rewrite app_nil_r, <- ?app_assoc. Qed.
Lemma c_place p : C (d_latlon p) = short_place p.
Proof. unfold short_place. cbn [compact d_latlon d_coord map label]. unfold commas. cbn [flat_map opens closes app]. now rewrite app_nil_r, <- ?app_assoc. Qed.
Lemma c_member m : C (d_member m) = short_member text m.
Proof.
  destruct m as [[t i] r]. unfold short_member. cbn [compact d_member d_objtype d_int map label]. unfold commas. cbn [flat_map opens closes app].
  destruct t; cbn [name_short letter lit app]; now rewrite app_nil_r, <- ?app_assoc.
Qed.
Lemma c_time t : C (d_timestamp t) = short_time text t.
Proof. destruct t; unfold short_time; cbn [compact d_timestamp d_int map label]; unfold commas; cbn [flat_map opens closes app]; now rewrite app_nil_r, <- ?app_assoc. Qed.

Lemma c_struct v name m f1 a f2 b : f1 <> [] -> f2 <> [] ->
  C (DGroup KTuple v [([], DGroup KStruct name (d_meta m ++ [(f1, a); (f2, b)]))])
  = v ++ lit "(" ++ name ++ lit " { " ++ short_meta text m ++ lit ", " ++ f1 ++ lit ": " ++ C a ++ lit ", " ++ f2 ++ lit ": " ++ C b ++ lit " })".
Proof.
  intros N1 N2.
  assert (L : forall f, f <> [] -> label f = f ++ lit ": ") by (intros [|c f] H; easy).
  cbn [compact map]. rewrite map_app. cbn [map].
  change (map (fun it : str * dv => let (l, v0) := it in label l ++ C v0) (d_meta m)) with
    [label (lit "_id") ++ C (d_int (m_id m)); label (lit "_version") ++ C (d_option d_int (m_version m)); label (lit "_deleted") ++ C (d_bool (m_deleted m));
     label (lit "_changeset_id") ++ C (d_option d_int (m_changeset m)); label (lit "_timestamp") ++ C (d_option d_timestamp (m_timestamp m));
     label (lit "_uid") ++ C (d_option d_int (m_uid m)); label (lit "_user") ++ C (d_option DText (m_user m))].
  change (label []) with (@nil char). rewrite !L by (assumption || discriminate).
  rewrite !(c_option d_int show_int) by reflexivity. rewrite (c_option d_timestamp (short_time text)) by apply c_time. rewrite (c_option DText text) by reflexivity.
  unfold short_meta. unfold commas. cbn [map app flat_map label opens closes d_bool d_int compact]. rewrite ?app_nil_r.
  change (lit ", _version: ") with (lit ", " ++ lit "_version" ++ lit ": ").
  change (lit ", _deleted: ") with (lit ", " ++ lit "_deleted" ++ lit ": ").
  change (lit ", _changeset_id: ") with (lit ", " ++ lit "_changeset_id" ++ lit ": ").
  change (lit ", _timestamp: ") with (lit ", " ++ lit "_timestamp" ++ lit ": ").
  change (lit ", _uid: ") with (lit ", " ++ lit "_uid" ++ lit ": ").
  change (lit ", _user: ") with (lit ", " ++ lit "_user" ++ lit ": ").
  change (lit "_id: ") with (lit "_id" ++ lit ": ").
  change (lit " })") with (lit " }" ++ lit ")").
  rewrite <- ?app_assoc. unfold d_meta. cbn [app]. rewrite <- ?app_assoc. reflexivity.
Qed.

Lemma c_s o : C (d_sobj o) = short_s text o.
Proof.
  destruct o as [n|w|r]; cbn [d_sobj]; rewrite c_struct by discriminate;
    rewrite ?(c_list d_tag (short_tag text)) by apply c_tag; rewrite ?(c_list d_int show_int) by reflexivity;
    rewrite ?(c_list d_member (short_member text)) by apply c_member; rewrite ?(c_option d_latlon short_place) by apply c_place; reflexivity.
Qed.
Lemma c_a ty o : C (d_aobj ty o) = short_a text ty o.
Proof.
  destruct o as [n|w|r]; cbn [d_aobj]; rewrite c_struct by discriminate;
    rewrite ?(c_option (d_list d_tag) (short_list (short_tag text))) by (intros; apply c_list; apply c_tag);
    rewrite ?(c_list d_tag (short_tag text)) by apply c_tag; rewrite ?(c_list d_int show_int) by reflexivity;
    rewrite ?(c_list d_member (short_member text)) by apply c_member; rewrite ?(c_option d_latlon short_place) by apply c_place;
    cbn [short_a]; rewrite <- ?app_assoc; reflexivity.
Qed.

(** *** Texts are literals *)

Lemma hex_value_app s t : forall n, hex_value n (s ++ t) = match hex_value n s with Some m => hex_value m t | None => None end.
Proof. induction s as [|c s IH]; intros n; [reflexivity|]. cbn [app hex_value]. destruct (hex_digit c); [apply IH|reflexivity]. Qed.
Lemma hexchar_value d : 0 <= d < 16 -> hex_digit (hexchar d) = Some d.
Proof.
  intros H. unfold hex_digit, hexchar. destruct (d <? 10) eqn:E.
  - replace ((48 <=? 48 + d) && (48 + d <=? 57)) with true by lia. f_equal. lia.
  - replace ((48 <=? 87 + d) && (87 + d <=? 57)) with false by lia. replace ((97 <=? 87 + d) && (87 + d <=? 102)) with true by lia. f_equal. lia.
Qed.
Lemma hex_denotes f : forall n, 0 <= n < 16 ^ Z.of_nat f -> hex_value 0 (hex f n) = Some n.
Proof.
  induction f as [|f IH]; intros n H; [cbn in *; f_equal; lia|]. cbn [hex]. rewrite hex_value_app.
  assert (M : 0 <= n mod 16 < 16) by (apply Z.mod_pos_bound; lia).
  destruct (n <? 16) eqn:E.
  - cbn [hex_value]. rewrite hexchar_value by exact M. f_equal. rewrite Z.mod_small by lia. lia.
  - rewrite IH.
    + cbn [hex_value]. rewrite hexchar_value by exact M. f_equal. pose proof (Z.div_mod n 16). lia.
    + rewrite Nat2Z.inj_succ, Z.pow_succ_r in H by lia. split; [apply Z.div_pos; lia|]. apply Z.div_lt_upper_bound; lia.
Qed.
Lemma hex_length f : forall n, (length (hex f n) <= f)%nat.
Proof. induction f as [|f IH]; intros n; [cbn; lia|]. cbn [hex]. rewrite app_length. cbn [length]. destruct (n <? 16); [cbn; lia|]. specialize (IH (n / 16)). lia. Qed.

Lemma escape_literal c b s : scalar c -> literal b s -> literal (escape printable c ++ b) (c :: s).
Proof.
  intros S L. unfold escape.
  destruct (c =? 0) eqn:E0; [apply Z.eqb_eq in E0 as ->; apply (lit_escape 48); [cbn; auto 10|exact L]|].
  destruct (c =? 9) eqn:E1; [apply Z.eqb_eq in E1 as ->; apply (lit_escape 116); [cbn; auto 10|exact L]|].
  destruct (c =? 13) eqn:E2; [apply Z.eqb_eq in E2 as ->; apply (lit_escape 114); [cbn; auto 10|exact L]|].
  destruct (c =? 10) eqn:E3; [apply Z.eqb_eq in E3 as ->; apply (lit_escape 110); [cbn; auto 10|exact L]|].
  destruct (c =? 92) eqn:E4; [apply Z.eqb_eq in E4 as ->; apply (lit_escape 92); [cbn; auto 10|exact L]|].
  destruct (c =? 34) eqn:E5; [apply Z.eqb_eq in E5 as ->; apply (lit_escape 34); [cbn; auto 10|exact L]|].
  destruct (printable c); [apply lit_plain; [lia|lia|lia|exact L]|].
  rewrite <- !app_assoc. apply lit_unicode; [|apply hex_denotes|exact L].
  - split; [|apply hex_length]. cbn [hex]. rewrite app_length. cbn. lia.
  - unfold scalar in S. change (16 ^ Z.of_nat 6) with 16777216. lia.
Qed.
Lemma text_literals : literals text.
Proof.
  intros s V. exists (flat_map (escape printable) s). split; [reflexivity|]. unfold valid_str in V. induction V as [|c s S V IH]; [constructor|].
  cbn [flat_map]. now apply escape_literal.
Qed.

(** *** Lines *)

Definition flat (s : str) : Prop := ~ In 10 s.
Definition nl (ls : list str) : str := between [10] ls.
Notation P := (pretty printable).

(** [d] is printed as the lines [ls]. *)
Definition prints (d : dv) (ls : list str) : Prop := ls <> [] /\ Forall flat ls /\ P d = nl ls.

Lemma pad_flat s r : forall b, flat s -> pad b (s ++ 10 :: r) = (if b then lit "    " else []) ++ s ++ 10 :: pad true r.
Proof.
  induction s as [|c s IH]; intros b F; [reflexivity|]. cbn [app pad].
  rewrite IH by (intros I; apply F; now right). replace (c =? 10) with false by (symmetry; apply Z.eqb_neq; intros ->; apply F; now left). reflexivity.
Qed.
Lemma pad_lines ls r : Forall flat ls -> pad true (flat_map (fun l => l ++ [10]) ls ++ r) = flat_map (fun l => lit "    " ++ l ++ [10]) ls ++ pad true r.
Proof.
  induction 1 as [|l ls F H IH]; [reflexivity|]. cbn [flat_map]. rewrite <- !app_assoc. cbn [app]. rewrite pad_flat by exact F. rewrite IH. now rewrite <- ?app_assoc.
Qed.
Lemma nl_comma ls : ls <> [] -> nl ls ++ [44; 10] = flat_map (fun l => l ++ [10]) (comma ls).
Proof.
  intros N. induction ls as [|l ls IH]; [easy|]. destruct ls as [|l' ls].
  - cbn. now rewrite app_nil_r, <- app_assoc.
  - change (nl (l :: l' :: ls)) with (l ++ [10] ++ nl (l' :: ls)). rewrite <- !app_assoc. rewrite IH by discriminate. cbn [comma flat_map]. now rewrite <- ?app_assoc.
Qed.
Lemma comma_flat ls : Forall flat ls -> Forall flat (comma ls).
Proof.
  induction 1 as [|l ls F H IH]; [constructor|]. destruct ls as [|l' ls].
  - constructor; [|constructor]. intros I. apply in_app_or in I as [I|[I|[]]]; [now apply F|discriminate].
  - constructor; assumption.
Qed.
Lemma nl_end ls x : ls <> [] -> nl (ls ++ [x]) = flat_map (fun l => l ++ [10]) ls ++ x.
Proof.
  intros N. induction ls as [|l ls IH]; [easy|]. destruct ls as [|l' ls].
  - cbn. now rewrite <- !app_assoc.
  - change (nl ((l :: l' :: ls) ++ [x])) with (l ++ [10] ++ nl ((l' :: ls) ++ [x])). rewrite IH by discriminate. cbn [flat_map]. now rewrite <- ?app_assoc.
Qed.

Lemma prints_group k name items lss :
  flat name -> items <> [] -> Forall2 (fun it ls => ls <> [] /\ Forall flat ls /\ label (fst it) ++ P (snd it) = nl ls) items lss ->
  prints (DGroup k name items) ([name ++ match k with KStruct => lit " {" | KTuple => lit "(" | KList => lit "[" end] ++ inside lss
    ++ [match k with KStruct => lit "}" | KTuple => lit ")" | KList => lit "]" end]).
Proof.
  intros Fn N H. split; [discriminate|].
  assert (F : Forall flat (concat (map comma lss))).
  { clear - H. induction H as [|it ls items lss (_ & F & _) H IH]; [constructor|]. cbn [map concat]. apply Forall_app. split; [now apply comma_flat|exact IH]. }
  assert (G : flat_map (fun it : str * dv => let (l, v) := it in label l ++ P v ++ [44; 10]) items = flat_map (fun l => l ++ [10]) (concat (map comma lss))).
  { clear - H. induction H as [|[l v] ls items lss (Ne & _ & E) H IH]; [reflexivity|]. cbn [map concat flat_map fst snd] in *. rewrite flat_map_app, <- IH, app_assoc, E.
    now rewrite nl_comma by exact Ne. }
  split.
  - apply Forall_app. split; [|apply Forall_app; split].
    + constructor; [|constructor]. intros I. apply in_app_or in I as [I|I]; [now apply Fn|]. destruct k; cbn in I; intuition discriminate.
    + unfold inside. apply Forall_forall. intros x I. apply in_map_iff in I as (y & <- & I). rewrite Forall_forall in F. specialize (F y I).
      intros J. apply F. cbn in J. intuition discriminate.
    + constructor; [|constructor]. intros I. destruct k; cbn in I; intuition discriminate.
  - assert (E : P (DGroup k name items) = name ++ opens_line k ++ pad true (flat_map (fun it : str * dv => let (l, v) := it in label l ++ P v ++ [44; 10]) items) ++ closes_line k).
    { destruct items as [|it items]; [easy|]. now destruct k. }
    rewrite E, G, (app_assoc [_] (inside lss)), nl_end by discriminate. cbn [app flat_map].
    rewrite <- (app_nil_r (flat_map _ (concat (map comma lss)))). rewrite pad_lines by exact F. cbn [pad]. rewrite app_nil_r.
    unfold inside. rewrite flat_map_concat_map, (flat_map_concat_map _ (map _ _)), map_map.
    unfold opens_line, closes_line. rewrite <- !app_assoc. destruct k; cbn [app]; rewrite <- ?app_assoc; reflexivity.
Qed.

Lemma word_flat s : word s -> flat s.
Proof. intros W I. unfold word in W. rewrite forallb_forall in W. specialize (W _ I). discriminate. Qed.
Lemma text_flat s : flat (text s).
Proof.
  unfold flat, quoted. rewrite !in_app_iff. intros [[I|[]]|[I|[I|[]]]]; try discriminate. apply in_flat_map in I as (c & _ & I).
  assert (H : forall f n, ~ In 10 (hex f n)).
  { induction f as [|f IH]; intros n J; [exact J|]. cbn [hex] in J. apply in_app_or in J as [J|[J|[]]].
    - destruct (n <? 16); [exact J|now apply IH in J].
    - pose proof (hexchar_range (n mod 16) (Z.mod_pos_bound n 16 ltac:(lia))). lia. }
  unfold escape in I. repeat match type of I with In _ (if ?b then _ else _) => destruct b eqn:?; [cbn in I; intuition lia|] end.
  rewrite !in_app_iff in I. destruct I as [I|[I|I]]; [cbn in I; intuition lia|now apply H in I|cbn in I; intuition lia].
Qed.

Lemma p_atom s : flat s -> prints (DAtom s) [s].
Proof. intros F. split; [discriminate|]. split; [now constructor|reflexivity]. Qed.
Lemma p_text s : prints (DText s) [text s].
Proof. split; [discriminate|]. split; [constructor; [apply text_flat|constructor]|reflexivity]. Qed.
Lemma p_int n : prints (d_int n) (long_int n).
Proof. apply p_atom, word_flat, int_word. Qed.
Lemma p_bool (b : bool) : prints (d_bool b) [if b then lit "true" else lit "false"].
Proof. apply p_atom. apply word_flat. now destruct b. Qed.
Lemma p_coord i : in_i32 i -> prints (d_coord i) [debug_coord i].
Proof. intros H. apply p_atom, word_flat, coord_word, H. Qed.
Lemma p_type t : prints (d_objtype t) [letter t].
Proof. destruct t; apply p_atom, word_flat; reflexivity. Qed.

(** Entries without and with a name. *)
Notation entry := (fun (it : str * dv) ls => ls <> [] /\ Forall flat ls /\ label (fst it) ++ P (snd it) = nl ls).
Lemma entry_plain d ls : prints d ls -> entry ([], d) ls.
Proof. intros H. exact H. Qed.
Lemma entry_field f d ls : f <> [] -> flat f -> prints d ls -> entry (f, d) (long_field f ls).
Proof.
  intros N F (N' & Fl & E). destruct ls as [|l ls]; [easy|]. unfold long_field, first_line. cbn [fst snd]. split; [discriminate|]. split.
  - inversion Fl; subst. constructor; [|assumption]. unfold flat in *. rewrite !in_app_iff. intros [[I|I]|I]; [easy| |easy]. cbn in I. intuition discriminate.
  - rewrite E. destruct f as [|c f]; [easy|]. unfold label, nl. destruct ls; cbn [between]; now rewrite <- ?app_assoc.
Qed.
Lemma p_tuple name items lss : flat name -> items <> [] -> Forall2 entry items lss -> prints (DGroup KTuple name items) (long_tuple name lss).
Proof. intros. now apply (prints_group KTuple). Qed.
Lemma p_struct name items lss : flat name -> items <> [] -> Forall2 entry items lss -> prints (DGroup KStruct name items) (long_struct name lss).
Proof. intros. now apply (prints_group KStruct). Qed.

Lemma p_list {A} (Q : A -> Prop) f g l : (forall x, Q x -> prints (f x) (g x)) -> Forall Q l -> prints (d_list f l) (long_list g l).
Proof.
  intros H V. unfold d_list, long_list. destruct l as [|x l].
  - split; [discriminate|]. split; [|reflexivity]. constructor; [|constructor]. intros I. cbn in I. intuition discriminate.
  - apply (prints_group KList); [easy|discriminate|]. revert V. generalize (x :: l). induction 1 as [|y r Hy V IH]; constructor; [|exact IH]. apply entry_plain, H, Hy.
Qed.
Lemma p_option {A} (Q : A -> Prop) f g o : (forall x, Q x -> prints (f x) (g x)) -> (forall x, o = Some x -> Q x) -> prints (d_option f o) (long_option g o).
Proof.
  intros H V. destruct o as [x|]; cbn [d_option long_option].
  - apply p_tuple; [apply word_flat; reflexivity|discriminate|]. constructor; [|constructor]. now apply entry_plain, H, V.
  - apply p_atom, word_flat. reflexivity.
Qed.
Lemma p_tag t : prints (d_tag t) (long_tag text t).
Proof. apply p_tuple; [easy|discriminate|]. repeat constructor; try discriminate; apply text_flat. Qed.
Lemma p_place p : value_latlon p -> prints (d_latlon p) (long_place p).
Proof. intros [A B]. apply p_tuple; [easy|discriminate|]. constructor; [now apply entry_plain, p_coord|]. constructor; [now apply entry_plain, p_coord|constructor]. Qed.
Lemma p_member m : prints (d_member m) (long_member text m).
Proof.
  destruct m as [[t i] r]. apply p_tuple; [easy|discriminate|]. constructor; [apply entry_plain, p_type|]. constructor; [apply entry_plain, p_int|].
  constructor; [apply entry_plain, p_text|constructor].
Qed.
Lemma p_time t : prints (d_timestamp t) (long_time text t).
Proof.
  destruct t as [s|n]; cbn [d_timestamp long_time]; (apply p_tuple; [apply word_flat; reflexivity|discriminate|]); (constructor; [|constructor]); apply entry_plain; [apply p_text|apply p_int].
Qed.

Lemma p_object v name m f1 a f2 b la lb : flat v -> flat name -> f1 <> [] -> flat f1 -> f2 <> [] -> flat f2 -> prints a la -> prints b lb ->
  prints (DGroup KTuple v [([], DGroup KStruct name (d_meta m ++ [(f1, a); (f2, b)]))])
    (long_tuple v [long_struct name (long_meta text m ++ [long_field f1 la; long_field f2 lb])]).
Proof.
  intros Fv Fn N1 F1 N2 F2 Ha Hb. apply p_tuple; [exact Fv|discriminate|]. constructor; [|constructor]. apply entry_plain.
  apply p_struct; [exact Fn|discriminate|]. apply Forall2_app.
  - assert (I : forall o, prints (d_option d_int o) (long_option long_int o)) by (intros o; apply (p_option (fun _ => True)); [intros; apply p_int|easy]).
    unfold d_meta, long_meta. repeat apply Forall2_cons; try apply Forall2_nil; apply entry_field; try discriminate; try (apply word_flat; reflexivity).
    + apply p_int.
    + apply I.
    + apply p_bool.
    + apply I.
    + apply (p_option (fun _ => True)); [intros; apply p_time|easy].
    + apply I.
    + apply (p_option (fun _ => True)); [intros; apply p_text|easy].
  - constructor; [now apply entry_field|]. constructor; [now apply entry_field|constructor].
Qed.

Lemma p_tags l : prints (d_list d_tag l) (long_list (long_tag text) l).
Proof. apply (p_list (fun _ => True)); [intros; apply p_tag|now apply Forall_forall]. Qed.
Lemma p_ints l : prints (d_list d_int l) (long_list long_int l).
Proof. apply (p_list (fun _ => True)); [intros; apply p_int|now apply Forall_forall]. Qed.
Lemma p_members l : prints (d_list d_member l) (long_list (long_member text) l).
Proof. apply (p_list (fun _ => True)); [intros; apply p_member|now apply Forall_forall]. Qed.

Lemma p_s o : value_s o -> prints (d_sobj o) (long_s text o).
Proof.
  intros (_ & _ & V). destruct o as [n|w|r]; cbn [d_sobj long_s]; apply p_object; try discriminate; try (apply word_flat; reflexivity);
    try apply p_tags; try apply p_ints; try apply p_members. apply (p_option value_latlon); [apply p_place|exact V].
Qed.
Lemma p_a ty o : word ty -> value_a o -> prints (d_aobj ty o) (long_a text ty o).
Proof.
  intros W (_ & V). destruct o as [n|w|r]; cbn [d_aobj long_a]; apply p_object; try discriminate; try (apply word_flat; reflexivity);
    try (apply word_flat, word_app; [exact W|reflexivity]); try apply p_tags; try apply p_ints; try apply p_members.
  - apply (p_option (fun _ => True)); [intros; apply p_tags|easy].
  - apply (p_option value_latlon); [apply p_place|apply V].
Qed.

End Proof.

(** ** C120 *)

(** The words of the Debug texts: on one line, and in lines. *)
Theorem C120_words : forall printable, exists text, literals text /\
  (forall o, compact printable (d_sobj o) = short_s text o) /\
  (forall ty o, compact printable (d_aobj ty o) = short_a text ty o) /\
  (forall o, value_s o -> pretty printable (d_sobj o) = between [10] (long_s text o)) /\
  (forall ty o, ty = lit "Arc" \/ ty = lit "Rc" -> value_a o -> pretty printable (d_aobj ty o) = between [10] (long_a text ty o)) /\
  (forall place os, Forall value_s os ->
     osc_debug printable place os = concat (map (fun o => lit "[" ++ place ++ lit "] o = " ++ between [10] (long_s text o) ++ [10]) os)).
Proof.
  intros printable. exists (quoted printable). split; [apply text_literals|]. split; [apply c_s|]. split; [apply c_a|].
  assert (S : forall o, value_s o -> pretty printable (d_sobj o) = between [10] (long_s (quoted printable) o)) by (intros o V; now destruct (p_s printable o V) as (_ & _ & E)).
  split; [exact S|]. split.
  - intros ty o T V. assert (W : word ty) by (destruct T; subst; reflexivity). now destruct (p_a printable ty o W V) as (_ & _ & E).
  - intros place os V. unfold osc_debug. induction V as [|o os Ho V IH]; [reflexivity|]. cbn [flat_map map concat]. now rewrite IH, S.
Qed.
Print Assumptions C120_words.

(** A concrete case, with the characters of ASCII that can be seen taken as they are. *)
Example C120_words_ex :
  let text := quoted (fun c => (32 <=? c) && (c <? 127)) in
  literal (lit "a\""b\n\u{e9}") [97; 34; 98; 10; 233]
  /\ text [97; 34; 98; 10; 233] = [34] ++ lit "a\""b\n\u{e9}" ++ [34]
  /\ short_s text (SRel (SR (Meta 3 None true None None None None) [] [(TWay, 5, lit "outer")]))
     = lit "Relation(StringRelation { _id: 3, _version: None, _deleted: true, _changeset_id: None, _timestamp: None, _uid: None, _user: None, _tags: [], _members: [(w, 5, ""outer"")] })"
  /\ long_s text (SNode (SN (Meta 3 (Some 1) true None None None None) [] (Some (515000000, -1200))))
     = map lit ["Node("; "    StringNode {"; "        _id: 3,"; "        _version: Some("; "            1,"; "        ),"; "        _deleted: true,"; "        _changeset_id: None,";
         "        _timestamp: None,"; "        _uid: None,"; "        _user: None,"; "        _tags: [],"; "        _lat_lon: Some("; "            (";
         "                51.5,"; "                -0.00012,"; "            ),"; "        ),"; "    },"; ")"]%string.
Proof.
  cbn zeta. split; [|repeat split; vm_compute; reflexivity].
  change (lit "a\""b\n\u{e9}") with ([97] ++ [92; 34] ++ [98] ++ [92; 110] ++ lit "\u{" ++ lit "e9" ++ lit "}" ++ []).
  apply lit_plain; [lia|lia|lia|]. apply (lit_escape 34); [cbn; auto 10|]. apply lit_plain; [lia|lia|lia|]. apply (lit_escape 110); [cbn; auto 10|].
  apply lit_unicode; [cbn; lia|reflexivity|]. constructor.
Qed.
