(** What the XML readers return, whatever the file: ranges and characters. *)
From Coq Require Import String ZArith List Bool Lia Permutation.
From Coq Require Import ZifyBool ZifyNat.
From Verif Require Import Base SpecNum Ints Timestamp Obj Coord CoordFacts Utf8 XmlWrite SpecXml SpecWriter XmlWriteFacts
  XmlToken XmlRead SpecXmlRead SpecIter SpecXmlText XmlExact XmlReadFacts PropsNum PropsCoord.
Import ListNotations.
Open Scope Z_scope.

(** ** Characters of the parser's events *)

Definition xtext (s : str) : Prop := Forall (fun c => xml_char c = true) s.
Definition xvalues (l : list (str * str)) : Prop := Forall (fun a => xtext (snd a)) l.
Definition ev_ok (e : event) : Prop := match e with EStart _ l => xvalues l | _ => True end.
Definition mode_ok (m : mode) : Prop :=
  match m with
  | MInTag _ l _ | MAttrName _ l _ | MAttrEq _ l _ | MBeforeVal _ l _ | MSlash _ l => xvalues l
  | MVal _ l _ _ v | MValRef _ l _ _ v _ => xvalues l /\ xtext v
  | _ => True
  end.
Definition p_ok (p : pst) : Prop := mode_ok (p_mode p) /\ Forall ev_ok (p_evs p).

Lemma reference_char r c : reference r = Some c -> xml_char c = true.
Proof.
  unfold reference. intros H.
  repeat match type of H with (if ?b then _ else _) = _ => destruct b; [injection H as <-; reflexivity|] end.
  destruct (match r with | 35 :: 120 :: _ :: _ => _ | 35 :: _ :: _ => _ | _ => _ end) as [x|]; [|discriminate].
  destruct (xml_char x) eqn:E; [|discriminate]. injection H as <-. exact E.
Qed.

Section Parser.
Variable aw : char -> char.
Hypothesis Hx : forall c, xml_char c = true -> xml_char (aw c) = true.

Lemma xvalues_snoc l a v : xvalues l -> xtext v -> xvalues (l ++ [(a, v)]).
Proof. intros Hl Hv. apply Forall_app. split; [exact Hl|]. constructor; [exact Hv|constructor]. Qed.
Lemma xtext_snoc v c : xtext v -> xml_char c = true -> xtext (v ++ [c]).
Proof. intros Hv Hc. apply Forall_app. split; [exact Hv|]. constructor; [exact Hc|constructor]. Qed.
Lemma evs_app l e : Forall ev_ok l -> Forall ev_ok e -> Forall ev_ok (l ++ e).
Proof. intros. apply Forall_app. now split. Qed.

Lemma flush_ok buf : Forall ev_ok (flush buf).
Proof. destruct buf; repeat constructor. Qed.

Lemma goto_ok m p : mode_ok m -> Forall ev_ok (p_evs p) -> p_ok (goto m p).
Proof. intros. now split. Qed.
Lemma open_ok n l p : xvalues l -> Forall ev_ok (p_evs p) -> p_ok (open_element n l p).
Proof. intros Hl He. split; [exact I|]. cbn [open_element p_evs]. apply evs_app; [exact He|]. constructor; [exact Hl|constructor]. Qed.
Lemma empty_ok n l p : xvalues l -> Forall ev_ok (p_evs p) -> p_ok (empty_element n l p).
Proof.
  intros Hl He. split; [exact I|]. cbn [empty_element p_evs]. apply evs_app; [exact He|].
  constructor; [exact Hl|]. constructor; [exact I|constructor].
Qed.
Lemma close_ok n p : Forall ev_ok (p_evs p) -> p_ok (close_element n p).
Proof.
  intros He. unfold close_element. destruct (p_stack p) as [|m r]; [now apply goto_ok|].
  destruct (str_eqb m n); [|now apply goto_ok]. split; [exact I|]. cbn [p_evs]. apply evs_app; [exact He|].
  constructor; [exact I|constructor].
Qed.

Lemma step_ok p c : p_ok p -> p_ok (tstep aw p c).
Proof.
  intros [Hm He]. unfold tstep. destruct (xml_char c) eqn:Ec; cbn [negb]; [|now apply goto_ok].
  destruct (p_mode p) eqn:Em; cbn [mode_ok] in Hm;
  repeat match goal with
         | |- p_ok (if ?b then _ else _) => destruct b
         | |- p_ok (match ?x with _ => _ end) => destruct x eqn:?
         end;
  try (apply goto_ok; [cbn [mode_ok]; tauto|exact He]);
  try (apply open_ok; [tauto || constructor|exact He]);
  try (apply empty_ok; [tauto || constructor|exact He]);
  try (apply close_ok; exact He);
  try (split; [exact I|]; cbn [p_evs]; apply evs_app; [exact He|]; first [apply flush_ok|repeat constructor]);
  try (split; [now rewrite Em|exact He]).
  all: try (apply goto_ok; [|exact He]; cbn [mode_ok]).
  - constructor.
  - constructor.
  - split; [exact Hm|constructor].
  - apply xvalues_snoc; tauto.
  - split; [tauto|]. apply xtext_snoc; [tauto|]. now apply Hx.
  - split; [tauto|]. apply xtext_snoc; [tauto|]. eapply reference_char; eassumption.
Qed.

Lemma run_ok s : forall p, p_ok p -> p_ok (trun aw p s).
Proof.
  unfold trun. induction s as [|c s IH]; intros p H; [exact H|]. cbn [fold_left]. apply IH, step_ok, H.
Qed.
Lemma start_ok : p_ok tstart.
Proof. split; [exact I|]. repeat constructor. Qed.

Definition item_ok (i : item) : Prop := match i with IEv e => ev_ok e | IErr => True end.
Lemma evs_items l : Forall ev_ok l -> Forall item_ok (map IEv l).
Proof. intros H. now apply Forall_map. Qed.

(** In every file, the values of all attributes consist of XML characters. *)
Lemma items_ok b : Forall item_ok (xml_items aw b).
Proof.
  assert (C : forall s, Forall item_ok (map IEv (p_evs (trun aw tstart s)) ++ [IErr])).
  { intros s. apply Forall_app. split; [apply evs_items, (run_ok s tstart start_ok)|repeat constructor]. }
  unfold xml_items. destruct (utf8_decode b) as [s|]; [|apply C].
  unfold titems. pose proof (C s) as C'. destruct (run_ok s tstart start_ok) as [_ E].
  assert (F : forall buf, Forall item_ok (map IEv (p_evs (trun aw tstart s) ++ flush buf ++ [EOther []]))).
  { intros buf. apply evs_items, evs_app; [exact E|]. apply evs_app; [apply flush_ok|repeat constructor]. }
  destruct (p_mode (trun aw tstart s)); try exact C'.
  destruct (p_stack (trun aw tstart s)); [|exact C']. destruct (p_rooted (trun aw tstart s)); [apply F|exact C'].
Qed.
End Parser.

(** ** Objects *)

Lemma get_attr_ok k l o l' : get_attr (lit k) l = (o, l') -> xvalues l -> opt_prop xtext o /\ xvalues l'.
Proof.
  unfold get_attr. pose proof (attr_position_spec k l) as S. intros E H.
  destruct (attr_position (lit k) l) as [i|].
  - destruct S as (v & E1 & _). rewrite E1 in E. cbn [opt_map snd] in E. injection E as <- <-.
    pose proof (swap_remove_perm l i _ E1) as P. unfold xvalues in *. rewrite P in H. inversion H; subst. split; assumption.
  - injection E as <- <-. split; [exact I|exact H].
Qed.

Lemma tags_ok els : Forall ev_ok els -> Forall (fun t => xtext (fst t) /\ xtext (snd t)) (get_tags els).
Proof.
  induction 1 as [|e els He _ IH]; [constructor|]. unfold get_tags in *. cbn [filter_map].
  match goal with |- context [match ?x with Some _ => _ | None => _ end] => destruct x as [t|] eqn:E end; [|exact IH].
  constructor; [|exact IH]. destruct e as [n l| |]; try discriminate. destruct (name_is n "tag"); [|discriminate].
  destruct (get_attr (lit "k") l) as [ko l1] eqn:E1. destruct (get_attr (lit "v") l1) as [vo l2] eqn:E2.
  destruct (get_attr_ok _ _ _ _ E1 He) as [A B]. destruct (get_attr_ok _ _ _ _ E2 B) as [C _].
  destruct ko, vo; try discriminate. injection E as <-. now split.
Qed.

Lemma members_ok els : Forall ev_ok els -> Forall (fun m => xtext (snd m) /\ in_i64 (snd (fst m))) (get_members els).
Proof.
  induction 1 as [|e els He _ IH]; [constructor|]. unfold get_members in *. cbn [filter_map].
  match goal with |- context [match ?x with Some _ => _ | None => _ end] => destruct x as [t|] eqn:E end; [|exact IH].
  constructor; [|exact IH]. destruct e as [n l| |]; try discriminate. destruct (name_is n "member"); [|discriminate].
  destruct (get_attr (lit "ref") l) as [ro l1] eqn:E1. destruct (get_attr (lit "type") l1) as [ty l2] eqn:E2.
  destruct (get_attr (lit "role") l2) as [role l3] eqn:E3.
  destruct (get_attr_ok _ _ _ _ E1 He) as [_ A]. destruct (get_attr_ok _ _ _ _ E2 A) as [_ B].
  destruct (get_attr_ok _ _ _ _ E3 B) as [C _].
  destruct (opt_bind ro parse_i64) as [i|] eqn:Ei; [|discriminate]. destruct (opt_bind ty objtype_of_str); [|discriminate].
  injection E as <-. cbn [fst snd]. split; [destruct role; [exact C|constructor]|].
  destruct ro as [r|]; [|discriminate]. cbn [opt_bind] in Ei. now apply C02_parse_i64_exact in Ei.
Qed.

Lemma nodes_ok els : Forall in_i64 (get_nodes els).
Proof.
  induction els as [|e els IH]; [constructor|]. unfold get_nodes in *. cbn [filter_map].
  match goal with |- context [match ?x with Some _ => _ | None => _ end] => destruct x as [t|] eqn:E end; [|exact IH].
  constructor; [|exact IH]. destruct e as [n l| |]; try discriminate. destruct (name_is n "nd"); [|discriminate].
  destruct (fst (get_attr (lit "ref") l)) as [r|]; [|discriminate]. cbn [opt_bind] in E. now apply C02_parse_i64_exact in E.
Qed.

Lemma u32_ok o : opt_prop in_u32 (opt_bind o parse_u32).
Proof.
  destruct o as [s|]; [|exact I]. cbn [opt_bind]. destruct (parse_u32 s) eqn:E; [|exact I]. now apply C02_parse_u32_exact in E.
Qed.

Lemma as_i32_ok x : in_i32 (f64_as_i32 x).
Proof. destruct x as [s|[]| |s m e E]; cbn [f64_as_i32]; unfold in_i32; lia. Qed.

Lemma coord_ok s i : coord_from_str s = ROk i -> in_i32 i.
Proof.
  unfold coord_from_str. destruct (f64_from_str s) as [x|]; [|discriminate]. unfold coord_of_product. cbv zeta.
  destruct (f64_lt _ _); [discriminate|]. destruct (f64_lt _ _); [discriminate|].
  intros H. injection H as <-. apply as_i32_ok.
Qed.

(** What every object that is read has. *)
Definition as_from_xml (o : sobj) : Prop :=
  in_range o /\ texts xtext xtext o
  /\ forall t, m_timestamp (s_meta o) = Some t -> exists s, t = ISOString s.

Lemma object_ok els o : Forall ev_ok els -> obj_of_events els = Some o -> as_from_xml o.
Proof.
  intros He H. destruct els as [|[n l| |] els]; try discriminate H. pose proof He as He'. inversion He as [|? ? Hl _]; subst.
  cbn [obj_of_events] in H. unfold ev_ok in Hl. set (E := EStart n l :: els) in *.
  pose proof (tags_ok E He') as HT. pose proof (members_ok E He') as HM. pose proof (nodes_ok E) as HN. clearbody E.
  assert (TS : forall ts, opt_prop xtext ts ->
    opt_prop (fun t => xtext (to_iso_string t)) (opt_map ISOString ts)
    /\ forall t, opt_map ISOString ts = Some t -> exists s, t = ISOString s).
  { intros [s|] Hs; cbn in *; [|easy]. split; [exact Hs|]. intros t [= <-]. now exists s. }
  destruct (name_is n "node"); [|destruct (name_is n "way"); [|destruct (name_is n "relation"); [|discriminate]]].
  - unfold node_of in H. destruct (get_attr (lit "id") l) as [a1 l1] eqn:E1. destruct (get_attr_ok _ _ _ _ E1 Hl) as [A1 B1].
    destruct a1 as [ids|]; [|discriminate H]. cbn [opt_bind] in H. destruct (parse_i64 ids) as [id|] eqn:Ei; [|discriminate H]. cbn [opt_bind] in H.
    destruct (get_attr (lit "version") l1) as [a2 l2] eqn:E2. destruct (get_attr_ok _ _ _ _ E2 B1) as [A2 B2].
    destruct (get_attr (lit "changeset") l2) as [a3 l3] eqn:E3. destruct (get_attr_ok _ _ _ _ E3 B2) as [A3 B3].
    destruct (get_attr (lit "timestamp") l3) as [a4 l4] eqn:E4. destruct (get_attr_ok _ _ _ _ E4 B3) as [A4 B4].
    destruct (get_attr (lit "uid") l4) as [a5 l5] eqn:E5. destruct (get_attr_ok _ _ _ _ E5 B4) as [A5 B5].
    destruct (get_attr (lit "user") l5) as [a6 l6] eqn:E6. destruct (get_attr_ok _ _ _ _ E6 B5) as [A6 B6].
    destruct (get_attr (lit "lat") l6) as [a7 l7] eqn:E7. destruct a7 as [la|]; [|discriminate H]. cbn [opt_map opt_bind] in H.
    destruct (get_attr (lit "lon") l7) as [a8 l8] eqn:E8. destruct a8 as [lo|]; [|discriminate H]. cbn [opt_map opt_bind] in H.
    destruct (get_attr (lit "visible") l8) as [a9 l9] eqn:E9.
    injection H as <-. apply C02_parse_i64_exact in Ei as [_ Ei]. destruct (TS _ A4) as [T1 T2].
    split; [|split; [|exact T2]].
    + unfold in_range. cbn [s_meta sn_meta m_id m_version m_changeset m_uid sn_latlon].
      repeat (split; [first [exact Ei|apply u32_ok]|]).
      destruct (coord_from_str la) eqn:K1; [|exact I]. destruct (coord_from_str lo) eqn:K2; [|exact I].
      apply coord_ok in K1, K2. now split.
    + unfold texts. cbn [s_meta sn_meta m_user s_tags sn_tags obj_members m_timestamp]. repeat split; auto.
  - unfold way_of in H. destruct (get_attr (lit "id") l) as [a1 l1] eqn:E1. destruct (get_attr_ok _ _ _ _ E1 Hl) as [A1 B1].
    destruct a1 as [ids|]; [|discriminate H]. cbn [opt_bind] in H. destruct (parse_i64 ids) as [id|] eqn:Ei; [|discriminate H]. cbn [opt_bind] in H.
    destruct (get_attr (lit "version") l1) as [a2 l2] eqn:E2. destruct (get_attr_ok _ _ _ _ E2 B1) as [A2 B2].
    destruct (get_attr (lit "changeset") l2) as [a3 l3] eqn:E3. destruct (get_attr_ok _ _ _ _ E3 B2) as [A3 B3].
    destruct (get_attr (lit "timestamp") l3) as [a4 l4] eqn:E4. destruct (get_attr_ok _ _ _ _ E4 B3) as [A4 B4].
    destruct (get_attr (lit "uid") l4) as [a5 l5] eqn:E5. destruct (get_attr_ok _ _ _ _ E5 B4) as [A5 B5].
    destruct (get_attr (lit "user") l5) as [a6 l6] eqn:E6. destruct (get_attr_ok _ _ _ _ E6 B5) as [A6 B6].
    destruct (get_attr (lit "visible") l6) as [a9 l9] eqn:E9.
    injection H as <-. apply C02_parse_i64_exact in Ei as [_ Ei]. destruct (TS _ A4) as [T1 T2].
    split; [|split; [|exact T2]].
    + unfold in_range. cbn [s_meta sw_meta m_id m_version m_changeset m_uid sw_nodes].
      repeat (split; [first [exact Ei|apply u32_ok]|]). exact HN.
    + unfold texts. cbn [s_meta sw_meta m_user s_tags sw_tags obj_members m_timestamp]. repeat split; auto.
  - unfold relation_of in H. destruct (get_attr (lit "id") l) as [a1 l1] eqn:E1. destruct (get_attr_ok _ _ _ _ E1 Hl) as [A1 B1].
    destruct a1 as [ids|]; [|discriminate H]. cbn [opt_bind] in H. destruct (parse_i64 ids) as [id|] eqn:Ei; [|discriminate H]. cbn [opt_bind] in H.
    destruct (get_attr (lit "version") l1) as [a2 l2] eqn:E2. destruct (get_attr_ok _ _ _ _ E2 B1) as [A2 B2].
    destruct (get_attr (lit "changeset") l2) as [a3 l3] eqn:E3. destruct (get_attr_ok _ _ _ _ E3 B2) as [A3 B3].
    destruct (get_attr (lit "timestamp") l3) as [a4 l4] eqn:E4. destruct (get_attr_ok _ _ _ _ E4 B3) as [A4 B4].
    destruct (get_attr (lit "uid") l4) as [a5 l5] eqn:E5. destruct (get_attr_ok _ _ _ _ E5 B4) as [A5 B5].
    destruct (get_attr (lit "user") l5) as [a6 l6] eqn:E6. destruct (get_attr_ok _ _ _ _ E6 B5) as [A6 B6].
    destruct (get_attr (lit "visible") l6) as [a9 l9] eqn:E9.
    injection H as <-. apply C02_parse_i64_exact in Ei as [_ Ei]. destruct (TS _ A4) as [T1 T2].
    split; [|split; [|exact T2]].
    + unfold in_range. cbn [s_meta sr_meta m_id m_version m_changeset m_uid sr_members].
      repeat (split; [first [exact Ei|apply u32_ok]|]). eapply Forall_impl; [|exact HM]. now intros m [_ K].
    + unfold texts. cbn [s_meta sr_meta m_user s_tags sr_tags obj_members m_timestamp]. repeat split; auto.
      eapply Forall_impl; [|exact HM]. now intros m [K _].
Qed.

(** ** Readers *)

Lemma pull_ok l : forall push acc els r, Forall item_ok l -> Forall ev_ok acc -> xml_pull push acc l = Ret (els, r) ->
  Forall ev_ok els /\ Forall item_ok r.
Proof.
  induction l as [|[e|] l IH]; intros push acc els r Hl Ha H; cbn [xml_pull] in H.
  - injection H as <- <-. now split.
  - inversion Hl as [|? ? He Hr]; subst. cbn [item_ok] in He.
    set (push' := match e with EStart n _ => obj_name n || push | _ => push end) in *.
    assert (Ha' : Forall ev_ok (if push' then acc ++ [e] else acc)).
    { destruct push'; [|exact Ha]. apply Forall_app. split; [exact Ha|]. constructor; [exact He|constructor]. }
    destruct (match e with EEnd n => obj_name n | _ => false end); [|exact (IH _ _ _ _ Hr Ha' H)].
    injection H as <- <-. now split.
  - discriminate.
Qed.

Lemma runs_ok s os r : Runs xml_next s os r -> Forall item_ok s -> Forall as_from_xml os.
Proof.
  induction 1 as [s s' H|s H|s a s1 l r H _ IH]; intros Hs; [constructor|constructor|].
  unfold xml_next in H. destruct (xml_pull false [] s) as [[els r']|] eqn:E; [|discriminate]. cbn [obind] in H.
  injection H as H <-. destruct (pull_ok _ _ _ _ _ Hs (Forall_nil _) E) as [A B].
  constructor; [exact (object_ok _ _ A H)|exact (IH B)].
Qed.
