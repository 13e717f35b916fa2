(** What the writers write: proofs about XmlWrite against SpecXml. *)
From Coq Require Import String ZArith List Bool Lia Permutation.
From Coq Require Import ZifyBool ZifyNat.
From Verif Require Import Base Ints Timestamp Obj Coord Utf8 XmlWrite SpecXml SpecWriter.
Import ListNotations.
Open Scope Z_scope.

(** ** Escaping *)

Lemma esc_char_resolves c t s : Resolves t s -> Resolves (esc_char c ++ t) (c :: s).
Proof.
  intros H. unfold esc_char.
  destruct (c =? chr "&") eqn:E1.
  { apply Z.eqb_eq in E1 as ->. exact (R_ent (lit "amp") _ _ _ Ent_amp H). }
  destruct (c =? 34) eqn:E2.
  { apply Z.eqb_eq in E2 as ->. exact (R_ent (lit "quot") _ _ _ Ent_quot H). }
  destruct (c =? chr "'") eqn:E3.
  { apply Z.eqb_eq in E3 as ->. exact (R_ent (lit "apos") _ _ _ Ent_apos H). }
  destruct (c =? chr "<") eqn:E4.
  { apply Z.eqb_eq in E4 as ->. exact (R_ent (lit "lt") _ _ _ Ent_lt H). }
  destruct (c =? chr ">") eqn:E5.
  { apply Z.eqb_eq in E5 as ->. exact (R_ent (lit "gt") _ _ _ Ent_gt H). }
  apply R_char; [lia|exact H].
Qed.

Lemma esc_resolves s : Resolves (esc s) s.
Proof.
  induction s as [|c s IH]; [constructor|]. cbn [esc flat_map]. now apply esc_char_resolves.
Qed.

Lemma inert_app a b : inert a -> inert b -> inert (a ++ b).
Proof. unfold inert. intros. now apply Forall_app. Qed.

Lemma esc_inert s : inert (esc s).
Proof.
  induction s as [|c s IH]; [constructor|]. cbn [esc flat_map].
  apply inert_app; [|exact IH]. unfold esc_char.
  destruct (c =? chr "&") eqn:E1; [repeat constructor; cbn; lia|].
  destruct (c =? 34) eqn:E2; [repeat constructor; cbn; lia|].
  destruct (c =? chr "'") eqn:E3; [repeat constructor; cbn; lia|].
  destruct (c =? chr "<") eqn:E4; [repeat constructor; cbn; lia|].
  destruct (c =? chr ">") eqn:E5; [repeat constructor; cbn; lia|].
  constructor; [lia|constructor].
Qed.

Lemma resolves_det t s1 : Resolves t s1 -> forall s2, Resolves t s2 -> s1 = s2.
Proof.
  induction 1 as [|c t s Hc H IH|n c t s He H IH]; intros s2 H2.
  - now inversion H2.
  - inversion H2; subst.
    + f_equal. now apply IH.
    + now elim Hc.
  - remember (lit "&" ++ n ++ lit ";" ++ t) as x eqn:Ex.
    destruct H2 as [|c2 t2 s2 Hc2 H2|n' c' t' s2 He' H2].
    + discriminate.
    + injection Ex. intros. subst. now elim Hc2.
    + assert (n = n' /\ c = c' /\ t = t') as (-> & -> & ->).
      { destruct He, He'; cbn in Ex; injection Ex; intros; subst; try discriminate; easy. }
      f_equal. now apply IH.
Qed.

(** ** Computations that write a known text *)

(** [sem m t r]: on a sink that never fails, [m] appends [t] and returns [r];
    on one that fails after [n] bytes it does the same if [t] fits, and
    otherwise appends the first [n] bytes of [t] and returns the I/O error. *)
Definition sem {A} (m : wm A) (t : bytes) (r : wres A) : Prop :=
  forall s, m s =
    match s_cap s with
    | None => (Sink (s_out s ++ t) None, r)
    | Some n =>
        if Nat.leb (length t) n then (Sink (s_out s ++ t) (Some (n - length t)%nat), r)
        else (Sink (s_out s ++ firstn n t) (Some O), WErr EIo)
    end.

Lemma sem_ret {A} (a : A) : sem (wret a) [] (WOk a).
Proof.
  intros [o [n|]]; cbn; unfold wret; rewrite app_nil_r; [|easy].
  now rewrite Nat.sub_0_r.
Qed.

Lemma sem_panic {A} : sem (@wpanic A) [] WPanic.
Proof.
  intros [o [n|]]; cbn; unfold wpanic; rewrite app_nil_r; [|easy].
  now rewrite Nat.sub_0_r.
Qed.

Lemma sem_write b : sem (write_all b) b (WOk tt).
Proof. intros [o [n|]]; reflexivity. Qed.

Lemma sem_emit t : sem (emit t) (utf8 t) (WOk tt).
Proof. apply sem_write. Qed.

Lemma sem_bind {A B} (m : wm A) (k : A -> wm B) t1 t2 a r :
  sem m t1 (WOk a) -> sem (k a) t2 r -> sem (wbind m k) (t1 ++ t2) r.
Proof.
  intros H1 H2 [o cap]. unfold wbind. rewrite H1. cbn [s_cap s_out].
  destruct cap as [n|].
  - rewrite app_length.
    destruct (Nat.leb (length t1) n) eqn:E1.
    + apply Nat.leb_le in E1. rewrite H2. cbn [s_cap s_out].
      destruct (Nat.leb (length t2) (n - length t1)) eqn:E2.
      * apply Nat.leb_le in E2.
        replace (Nat.leb (length t1 + length t2) n) with true by (symmetry; apply Nat.leb_le; lia).
        rewrite app_assoc. do 3 f_equal. lia.
      * apply Nat.leb_gt in E2.
        replace (Nat.leb (length t1 + length t2) n) with false by (symmetry; apply Nat.leb_gt; lia).
        rewrite firstn_app, (firstn_all2 t1) by lia. now rewrite app_assoc.
    + apply Nat.leb_gt in E1.
      replace (Nat.leb (length t1 + length t2) n) with false by (symmetry; apply Nat.leb_gt; lia).
      rewrite firstn_app. replace (n - length t1)%nat with O by lia. cbn. now rewrite app_nil_r.
  - rewrite H2. cbn. now rewrite app_assoc.
Qed.

Lemma sem_bind_panic {A B} (m : wm A) (k : A -> wm B) t :
  sem m t WPanic -> sem (wbind m k) t WPanic.
Proof.
  intros H1 [o cap]. unfold wbind. rewrite H1. cbn [s_cap s_out].
  destruct cap as [n|]; [|easy]. now destruct (Nat.leb (length t) n).
Qed.

Lemma sem_for {A} (l : list A) f g :
  (forall a, In a l -> sem (f a) (g a) (WOk tt)) -> sem (wfor l f) (flat_map g l) (WOk tt).
Proof.
  induction l as [|a l IH]; intros H; cbn.
  - apply sem_ret.
  - eapply sem_bind; [apply H; now left|]. apply IH. intros b Hb. apply H. now right.
Qed.

Lemma sem_opt {A} (o : option A) f g :
  (forall a, sem (f a) (g a) (WOk tt)) -> sem (wopt o f) (opt_list o g) (WOk tt).
Proof. intros H. destruct o; cbn; [apply H|apply sem_ret]. Qed.

Lemma sem_eq {A} (m : wm A) t t' r : sem m t r -> t = t' -> sem m t' r.
Proof. now intros H <-. Qed.

(** ** Texts and bytes *)

Lemma utf8_flat_map {A} (f : A -> str) l : utf8 (flat_map f l) = flat_map (fun a => utf8 (f a)) l.
Proof.
  induction l as [|a l IH]; cbn; [easy|]. now rewrite utf8_app, IH.
Qed.

Lemma utf8_opt_list {A} (o : option A) (f : A -> str) : utf8 (opt_list o f) = opt_list o (fun a => utf8 (f a)).
Proof. now destruct o. Qed.

Lemma sem_escaped s : sem (write_xml_escaped s) (utf8 (esc s)) (WOk tt).
Proof.
  unfold write_xml_escaped, esc. rewrite utf8_flat_map. apply sem_for. intros c _.
  unfold esc_char. change (chr "&") with 38. change (chr "'") with 39.
  change (chr "<") with 60. change (chr ">") with 62.
  destruct (c =? 38); [apply sem_emit|].
  destruct (c =? 34); [apply sem_emit|].
  destruct (c =? 39); [apply sem_emit|].
  destruct (c =? 60); [apply sem_emit|].
  destruct (c =? 62); [apply sem_emit|]. apply sem_emit.
Qed.

(** Step through a sequence of writes. *)
Ltac sem_step :=
  first
    [ eapply sem_bind
    | apply sem_emit
    | apply sem_escaped
    | apply sem_ret
    | apply sem_opt; intros
    | apply sem_for; intros ].

(** ** Object texts *)

Lemma attrs_text_app a b : attrs_text (a ++ b) = attrs_text a ++ attrs_text b.
Proof. apply flat_map_app. Qed.

Lemma untagged_short o : is_node o && s_untagged o = short_form o.
Proof. destruct o as [[m [|] l]|w|r]; reflexivity. Qed.

Lemma attrs_text_opt {A} (o : option A) (f : A -> list (str * str)) :
  attrs_text (opt_list o f) = opt_list o (fun a => attrs_text (f a)).
Proof. now destruct o. Qed.

Lemma attrs_text_cons a l : attrs_text (a :: l) = attr_text a ++ attrs_text l.
Proof. reflexivity. Qed.

Lemma osc_body_eq o : osc_write_body o = xml_write_body o.
Proof. reflexivity. Qed.

Lemma sem_role role : sem (match role with [] => wret tt | _ => write_xml_escaped role end)
  (utf8 (esc role)) (WOk tt).
Proof. destruct role; [apply sem_ret|apply sem_escaped]. Qed.

Lemma sem_member t i role :
  sem (emit (nl ++ tab ++ tab ++ lit "<member type=" ++ dq ++ name_long t ++ dq
          ++ lit " ref=" ++ dq ++ show_int i ++ dq ++ lit " role=" ++ dq);;
       (match role with [] => wret tt | _ => write_xml_escaped role end);;
       emit (dq ++ lit "/>"))
    (utf8 (child_text (lit "member") (member_attrs esc (t, i, role)) (lit "/>"))) (WOk tt).
Proof.
  eapply sem_eq.
  { eapply sem_bind; [apply sem_emit|]. eapply sem_bind; [apply sem_role|apply sem_emit]. }
  rewrite <- !utf8_app. f_equal. unfold child_text, attrs_text, attr_text, member_attrs.
  cbn. repeat (rewrite <- app_assoc; cbn). reflexivity.
Qed.

Lemma sem_body o : sem (xml_write_body o) (utf8 (write_text o)) (write_res o).
Proof.
  unfold xml_write_body, write_text, write_res.
  destruct (m_version (s_meta o)) as [v|] eqn:Ev.
  - rewrite untagged_short.
    eapply sem_eq.
    { sem_step; [sem_step|]. sem_step; [sem_step|]. sem_step; [sem_step|]. sem_step; [sem_step|].
      sem_step. { sem_step. sem_step; [sem_step|]. sem_step; [sem_step|sem_step]. }
      sem_step. { sem_step. sem_step. }
      sem_step. { sem_step. sem_step. }
      sem_step. { sem_step. sem_step. }
      sem_step.
      { sem_step. apply (sem_opt _ _ (fun p => utf8 (attrs_text
          [(lit "lat", show_coord (fst p)); (lit "lon", show_coord (snd p))]))).
        intros [lat lon]. eapply sem_eq; [sem_step; sem_step|].
        rewrite <- utf8_app. f_equal. cbn. repeat (rewrite <- app_assoc; cbn).
        reflexivity. }
      instantiate (1 := utf8 (if short_form o then lit " />"
        else lit ">" ++ children_text o ++ [10; 9] ++ lit "</" ++ name_long (s_type o) ++ lit ">")).
      destruct (short_form o); [apply sem_emit|].
      eapply sem_eq.
      { sem_step; [sem_step|].
        sem_step. { sem_step. apply sem_for. intros nid _. apply sem_emit. }
        sem_step.
        { sem_step. apply (sem_for _ _ (fun m => utf8 (child_text (lit "member") (member_attrs esc m) (lit "/>")))).
          intros [[t i] role] _.
          apply sem_member. }
        sem_step.
        { apply (sem_for _ _ (fun t => utf8 (child_text (lit "tag") (tag_attrs esc t) (lit " />")))).
          intros [k v'] _.
          eapply sem_eq.
          { sem_step; [sem_step|]. sem_step; [sem_step|]. sem_step; [sem_step|].
            sem_step; [sem_step|]. sem_step. }
          rewrite <- !utf8_app. f_equal. unfold child_text, attrs_text, attr_text, tag_attrs.
          cbn. repeat (rewrite <- app_assoc; cbn). reflexivity. }
        sem_step. }
      unfold children_text. rewrite !utf8_app, !utf8_flat_map, <- !app_assoc.
      f_equal.
      destruct o as [n|w|r]; cbn [into_way into_relation opt_list obj_nds obj_members flat_map
        s_tags s_type name_long app]; f_equal. 
      all: try (apply flat_map_ext; intros x).
      all: try (rewrite <- ?utf8_app; f_equal; unfold child_text, attrs_text, attr_text, nd_attrs;
        cbn; repeat (rewrite <- app_assoc; cbn); reflexivity). }
    unfold obj_text, obj_attrs. rewrite Ev.
    rewrite !attrs_text_app, !attrs_text_opt, !utf8_app, !utf8_opt_list.
    cbn [opt_list].
    assert (Hn : utf8 (attrs_text match o with
         | SNode n => opt_list (sn_latlon n) (fun '(lat, lon) =>
                    [(lit "lat", show_coord lat); (lit "lon", show_coord lon)])
         | _ => [] end)
      = opt_list (into_node o) (fun n => opt_list (sn_latlon n) (fun p => utf8 (attrs_text
          [(lit "lat", show_coord (fst p)); (lit "lon", show_coord (snd p))])))).
    { destruct o as [n| |]; [|easy|easy]. cbn [into_node opt_list].
      destruct (sn_latlon n) as [[lat lon]|]; reflexivity. }
    rewrite Hn. clear Hn.
    rewrite <- !app_assoc.
    assert (E1 : utf8 match s_type o with
       | TNode => nl ++ tab ++ lit "<node"
       | TWay => nl ++ tab ++ lit "<way"
       | TRelation => nl ++ tab ++ lit "<relation"
       end = utf8 [10; 9] ++ utf8 (lit "<") ++ utf8 (name_long (s_type o))).
    { rewrite <- !utf8_app. now destruct (s_type o). }
    rewrite E1, <- !app_assoc. do 3 f_equal.
    assert (Eo : forall (A : Type) (x : option A) f g,
      (forall a, f a = g a) -> opt_list x f = opt_list x g :> list Z).
    { intros A x f g H. destruct x; cbn; [apply H|easy]. }
    rewrite (Eo _ (m_user _) _ (fun a => utf8 (attrs_text [(lit "user", esc a)])));
      [|intros a; rewrite <- !utf8_app; f_equal; unfold attrs_text, attr_text; cbn;
        repeat (rewrite <- app_assoc; cbn); reflexivity].
    rewrite (Eo _ (m_uid _) _ (fun a => utf8 (attrs_text [(lit "uid", show_uint a)])));
      [|intros a; f_equal; unfold attrs_text, attr_text; cbn;
        repeat (rewrite <- app_assoc; cbn); reflexivity].
    rewrite (Eo _ (m_changeset _) _ (fun a => utf8 (attrs_text [(lit "changeset", show_uint a)])));
      [|intros a; f_equal; unfold attrs_text, attr_text; cbn;
        repeat (rewrite <- app_assoc; cbn); reflexivity].
    rewrite (Eo _ (m_timestamp _) _ (fun a => utf8 (attrs_text [(lit "timestamp", to_iso_string a)])));
      [|intros a; f_equal; unfold attrs_text, attr_text; cbn;
        repeat (rewrite <- app_assoc; cbn); reflexivity].
    rewrite attrs_text_cons, utf8_app, <- !app_assoc.
    assert (Ea : forall k x, utf8 (attrs_text [(k, x)]) = utf8 (lit " " ++ k ++ lit "=" ++ dq ++ x ++ dq)).
    { intros. unfold attrs_text, attr_text. cbn [flat_map fst snd]. now rewrite app_nil_r. }
    rewrite !Ea. unfold attr_text. cbn [fst snd]. rewrite !utf8_app, <- !app_assoc. reflexivity.
  - eapply sem_eq.
    { sem_step; [sem_step|]. sem_step; [sem_step|]. sem_step; [sem_step|].
      apply sem_bind_panic, sem_panic. }
    unfold broken_text. rewrite app_nil_r, <- !utf8_app. f_equal.
    destruct (s_type o); unfold attrs_text, attr_text; cbn; rewrite ?app_nil_r;
      repeat (rewrite <- app_assoc; cbn); reflexivity.
Qed.

(** ** Writer calls *)

(** [wsem f st h t st' h' r]: from state [st] and headers [h], the call [f]
    writes [t], goes to [st'], [h'] and returns [r]; on a sink where [t] does
    not fit it writes what fits, fails, and leaves the sink full. *)
Definition wsem (f : writer -> writer * wres unit) st h (t : bytes) st' h' r : Prop :=
  (forall o, f (Writer (Sink o None) h st) = (Writer (Sink (o ++ t) None) h' st', r)) /\
  (forall o n, (length t <= n)%nat ->
     f (Writer (Sink o (Some n)) h st) = (Writer (Sink (o ++ t) (Some (n - length t)%nat)) h' st', r)) /\
  (forall o n, (n < length t)%nat ->
     exists h'' st'', f (Writer (Sink o (Some n)) h st)
       = (Writer (Sink (o ++ firstn n t) (Some O)) h'' st'', WErr EIo)
       /\ (st'' = st \/ (st = Initial /\ st'' = WritingObjects))
       /\ h'' = h).

Lemma wsem_nil f st h st' h' r :
  (forall s, f (Writer s h st) = (Writer s h' st', r)) -> wsem f st h [] st' h' r.
Proof.
  intros H. repeat split; intros.
  - now rewrite H, app_nil_r.
  - rewrite H, app_nil_r. cbn. now rewrite Nat.sub_0_r.
  - cbn in *. lia.
Qed.

(** A call that runs one computation and then sets state and result. *)
Lemma wsem_of_sem f st h t st' h' r m :
  sem m t r -> (forall e, r <> WErr e) ->
  (forall s, f (Writer s h st) =
     match m s with
     | (s', WErr e) => (Writer s' h st, WErr e)
     | (s', x) => (Writer s' h' st', x)
     end) -> wsem f st h t st' h' r.
Proof.
  intros Hm Hr Hf. repeat split; intros.
  - rewrite Hf, Hm. cbn. destruct r; try easy. now elim (Hr e).
  - rewrite Hf, Hm. cbn. replace (Nat.leb (length t) n) with true by (symmetry; now apply Nat.leb_le).
    destruct r; try easy. now elim (Hr e).
  - rewrite Hf, Hm. cbn. replace (Nat.leb (length t) n) with false by (symmetry; now apply Nat.leb_gt).
    exists h, st. auto.
Qed.

(** Two calls in sequence, as in "ensure_header()?; ...". *)
Lemma wsem_seq f g k st h t1 st1 t2 st2 r :
  wsem f st h t1 st1 h (WOk tt) -> wsem g st1 h t2 st2 h r ->
  (st1 = st \/ (st = Initial /\ st1 = WritingObjects)) ->
  (forall w, w_state w = st -> k w = match f w with (w1, WOk _) => g w1 | (w1, x) => (w1, x) end) ->
  wsem k st h (t1 ++ t2) st2 h r.
Proof.
  intros [F1 [F2 F3]] [G1 [G2 G3]] Hst Hk. repeat split; intros.
  - rewrite Hk by easy. rewrite F1, G1. now rewrite app_assoc.
  - rewrite app_length in *. rewrite Hk by easy. rewrite F2 by lia. rewrite G2 by lia.
    rewrite app_assoc. do 4 f_equal. lia.
  - rewrite app_length in *. rewrite Hk by easy.
    destruct (Nat.leb (length t1) n) eqn:E.
    + apply Nat.leb_le in E. rewrite F2 by lia.
      destruct (G3 (o ++ t1) (n - length t1)%nat ltac:(lia)) as (h2 & s2 & -> & Hs & ->).
      exists h, s2. rewrite firstn_app, (firstn_all2 t1) by lia. rewrite app_assoc.
      split; [easy|]. split; [|easy].
      destruct Hst as [-> | [-> ->]]; destruct Hs as [-> | [? ->]]; auto; discriminate.
    + apply Nat.leb_gt in E. destruct (F3 o n ltac:(lia)) as (h2 & s2 & -> & Hs & ->).
      exists h, s2. rewrite firstn_app. replace (n - length t1)%nat with O by lia.
      cbn. now rewrite app_nil_r.
Qed.

(** The abstract step: text, next state, next headers, result. *)
Definition xml_step (ord : list (str * str) -> list (str * str)) (c : call) (st : wstate)
    (h : list (str * str)) : str * wstate * list (str * str) * wres unit :=
  match c, st with
  | CSetHeader k v, Initial => ([], Initial, map_insert k v h, WOk tt)
  | CSetHeader k v, WritingObjects => ([], WritingObjects, h, WErr EStarted)
  | CSetHeader k v, Closed => ([], Closed, h, WErr EClosed)
  | CWrite o, Initial => (xml_opening (ord h) ++ write_text o, WritingObjects, h, write_res o)
  | CWrite o, WritingObjects => (write_text o, WritingObjects, h, write_res o)
  | CWrite o, Closed => ([], Closed, h, WErr EClosed)
  | CClose, Initial => (xml_opening (ord h) ++ xml_closing, Closed, h, WOk tt)
  | CClose, WritingObjects => (xml_closing, Closed, h, WOk tt)
  | CClose, Closed => (xml_closing, Closed, h, WOk tt)
  end.

Definition osc_step (c : call) (st : wstate) (h : list (str * str))
    : str * wstate * list (str * str) * wres unit :=
  match c, st with
  | CSetHeader k v, st => ([], st, h, WPanic)
  | CWrite o, Initial => (osc_opening ++ write_text o, WritingObjects, h, write_res o)
  | CWrite o, WritingObjects => (write_text o, WritingObjects, h, write_res o)
  | CWrite o, Closed => ([], Closed, h, WErr EClosed)
  | CClose, Initial => (osc_opening ++ osc_closing, Closed, h, WOk tt)
  | CClose, WritingObjects => (osc_closing, Closed, h, WOk tt)
  | CClose, Closed => ([], Closed, h, WOk tt)
  end.

Definition refines (f : writer -> call -> writer * wres unit)
    (step : call -> wstate -> list (str * str) -> str * wstate * list (str * str) * wres unit) : Prop :=
  forall c st h, let '(t, st', h', r) := step c st h in
    wsem (fun w => f w c) st h (utf8 t) st' h' r.

Lemma sem_xml_header l :
  sem (emit (lit "<?xml version=" ++ dq ++ lit "1.0" ++ dq ++ lit " encoding=" ++ dq
               ++ lit "utf-8" ++ dq ++ lit "?>" ++ nl);;
         emit (lit "<osm version=" ++ dq ++ lit "0.6" ++ dq ++ lit " generator=" ++ dq
               ++ lit "osmio/" ++ crate_version ++ dq);;
         wfor l (fun '(k, v) =>
           emit (lit " " ++ k ++ lit "=" ++ dq);;
           write_xml_escaped v;;
           emit dq);;
         emit (lit ">")) (utf8 (xml_opening l)) (WOk tt).
Proof.
  eapply sem_eq.
  { eapply sem_bind; [apply sem_emit|]. eapply sem_bind; [apply sem_emit|].
    eapply sem_bind; [|apply sem_emit].
    apply (sem_for _ _ (fun h => utf8 (attr_text (fst h, esc (snd h))))).
    intros [k v] _. eapply sem_eq.
    { eapply sem_bind; [apply sem_emit|]. eapply sem_bind; [apply sem_escaped|apply sem_emit]. }
    rewrite <- !utf8_app. f_equal. unfold attr_text. cbn [fst snd].
    rewrite <- !app_assoc. reflexivity. }
  rewrite <- utf8_flat_map, <- !utf8_app. f_equal.
  unfold xml_opening. rewrite attrs_text_app, <- !app_assoc.
  assert (E : flat_map (fun h => attr_text (fst h, esc (snd h))) l
    = attrs_text (map (fun h => (fst h, esc (snd h))) l)).
  { unfold attrs_text. rewrite !flat_map_concat_map, map_map. reflexivity. }
  rewrite E. reflexivity.
Qed.

Lemma sem_osc_header :
  sem (emit (lit "<?xml version=" ++ dq ++ lit "1.0" ++ dq ++ lit " encoding=" ++ dq
               ++ lit "utf-8" ++ dq ++ lit "?>" ++ nl);;
         emit (lit "<osmChange version=" ++ dq ++ lit "0.6" ++ dq ++ lit " generator=" ++ dq
               ++ lit "osmio/" ++ crate_version ++ dq);;
         emit (lit ">");;
         emit (nl ++ lit "<modify>")) (utf8 osc_opening) (WOk tt).
Proof.
  eapply sem_eq.
  { eapply sem_bind; [apply sem_emit|]. eapply sem_bind; [apply sem_emit|].
    eapply sem_bind; apply sem_emit. }
  rewrite <- !utf8_app. reflexivity.
Qed.

Lemma wok_neq e : @WOk unit tt <> WErr e. Proof. discriminate. Qed.

Lemma ok_wsem m t h st st' f :
  sem m t (WOk tt) ->
  (forall s, f (Writer s h st) = match m s with
      | (s, WOk _) => (Writer s h st', WOk tt)
      | (s, r) => (Writer s h st, r)
      end) ->
  wsem f st h t st' h (WOk tt).
Proof.
  intros Hm Hf. eapply wsem_of_sem; [exact Hm|apply wok_neq|].
  intros s. rewrite Hf. pose proof (Hm s) as E.
  destruct (m s) as [s' [[]|e|]] eqn:Es; try easy.
  exfalso. destruct (s_cap s); [destruct (Nat.leb _ _)|]; discriminate.
Qed.

Lemma xml_header_wsem ord h :
  wsem (xml_ensure_header ord) Initial h (utf8 (xml_opening (ord h))) WritingObjects h (WOk tt).
Proof.
  apply (ok_wsem _ _ _ _ _ _ (sem_xml_header (ord h))). reflexivity.
Qed.

Lemma osc_header_wsem h :
  wsem osc_ensure_header Initial h (utf8 osc_opening) WritingObjects h (WOk tt).
Proof.
  apply (ok_wsem _ _ _ _ _ _ sem_osc_header). reflexivity.
Qed.

Lemma write_res_neq o e : write_res o <> WErr e.
Proof. unfold write_res. destruct (m_version _); discriminate. Qed.

Lemma body_wsem o h st :
  wsem (fun w1 => match xml_write_body o (w_sink w1) with
                  | (s, r) => (Writer s (w_headers w1) (w_state w1), r)
                  end) st h (utf8 (write_text o)) st h (write_res o).
Proof.
  eapply wsem_of_sem; [apply sem_body|apply write_res_neq|].
  intros s. cbn. destruct (xml_write_body o s) as [s' [a|e|]]; try easy.
Qed.

Lemma footer_wsem m t h st f :
  sem m t (WOk tt) ->
  (forall w, f w = match m (w_sink w) with
      | (s, WOk _) => (Writer s (w_headers w) Closed, WOk tt)
      | (s, r) => (Writer s (w_headers w) (w_state w), r)
      end) ->
  wsem f st h t Closed h (WOk tt).
Proof. intros Hm Hf. apply (ok_wsem _ _ _ _ _ _ Hm). intros s. now rewrite Hf. Qed.

Lemma xml_refines ord : refines (xml_call ord) (xml_step ord).
Proof.
  intros c st h. destruct c as [k v|o|], st; cbn [xml_step xml_call].
  1-3: apply wsem_nil; reflexivity.
  - rewrite utf8_app.
    eapply wsem_seq; [apply xml_header_wsem|apply body_wsem|now right|].
    intros w Hw. unfold xml_write_obj. rewrite Hw.
    destruct (xml_ensure_header ord w) as [w1 [| |]]; reflexivity.
  - destruct (body_wsem o h WritingObjects) as [B1 [B2 B3]]. repeat split; intros.
    + apply B1.
    + now apply B2.
    + now apply B3.
  - apply wsem_nil; reflexivity.
  - rewrite utf8_app.
    eapply wsem_seq with (g := fun w1 => match emit (nl ++ lit "</osm>") (w_sink w1) with
      | (s, WOk _) => (Writer s (w_headers w1) Closed, WOk tt)
      | (s, r) => (Writer s (w_headers w1) (w_state w1), r)
      end); [apply xml_header_wsem| |now right|].
    + eapply footer_wsem; [apply sem_emit|reflexivity].
    + intros w Hw. unfold xml_close. destruct (xml_ensure_header ord w) as [w1 [| |]]; reflexivity.
  - assert (H : wsem (fun w1 => match emit (nl ++ lit "</osm>") (w_sink w1) with
      | (s, WOk _) => (Writer s (w_headers w1) Closed, WOk tt)
      | (s, r) => (Writer s (w_headers w1) (w_state w1), r)
      end) WritingObjects h (utf8 xml_closing) Closed h (WOk tt)).
    { eapply footer_wsem; [apply sem_emit|reflexivity]. }
    exact H.
  - assert (H : wsem (fun w1 => match emit (nl ++ lit "</osm>") (w_sink w1) with
      | (s, WOk _) => (Writer s (w_headers w1) Closed, WOk tt)
      | (s, r) => (Writer s (w_headers w1) (w_state w1), r)
      end) Closed h (utf8 xml_closing) Closed h (WOk tt)).
    { eapply footer_wsem; [apply sem_emit|reflexivity]. }
    exact H.
Qed.

Lemma sem_osc_footer : sem (emit (nl ++ lit "</modify>");; emit (nl ++ lit "</osmChange>"))
  (utf8 osc_closing) (WOk tt).
Proof.
  eapply sem_eq; [eapply sem_bind; apply sem_emit|]. rewrite <- utf8_app. reflexivity.
Qed.

Lemma osc_refines : refines osc_call osc_step.
Proof.
  intros c st h. destruct c as [k v|o|], st; cbn [osc_step osc_call].
  1-3: apply wsem_nil; reflexivity.
  - rewrite utf8_app.
    eapply wsem_seq; [apply osc_header_wsem|apply body_wsem|now right|].
    intros w Hw. unfold osc_write_obj. rewrite Hw.
    destruct (osc_ensure_header w) as [w1 [| |]]; reflexivity.
  - destruct (body_wsem o h WritingObjects) as [B1 [B2 B3]]. repeat split; intros.
    + apply B1.
    + now apply B2.
    + now apply B3.
  - apply wsem_nil; reflexivity.
  - rewrite utf8_app.
    eapply wsem_seq with (g := fun w1 => match w_state w1 with
      | Closed => (w1, WOk tt)
      | _ => match (emit (nl ++ lit "</modify>");; emit (nl ++ lit "</osmChange>")) (w_sink w1) with
             | (s, WOk _) => (Writer s (w_headers w1) Closed, WOk tt)
             | (s, r) => (Writer s (w_headers w1) (w_state w1), r)
             end
      end); [apply osc_header_wsem| |now right|].
    + assert (H : wsem (fun w1 => match (emit (nl ++ lit "</modify>");; emit (nl ++ lit "</osmChange>")) (w_sink w1) with
             | (s, WOk _) => (Writer s (w_headers w1) Closed, WOk tt)
             | (s, r) => (Writer s (w_headers w1) (w_state w1), r)
             end) WritingObjects h (utf8 osc_closing) Closed h (WOk tt)).
      { eapply footer_wsem; [apply sem_osc_footer|reflexivity]. }
      exact H.
    + intros w Hw. unfold osc_close. destruct (osc_ensure_header w) as [w1 [| |]]; reflexivity.
  - assert (H : wsem (fun w1 => match (emit (nl ++ lit "</modify>");; emit (nl ++ lit "</osmChange>")) (w_sink w1) with
             | (s, WOk _) => (Writer s (w_headers w1) Closed, WOk tt)
             | (s, r) => (Writer s (w_headers w1) (w_state w1), r)
             end) WritingObjects h (utf8 osc_closing) Closed h (WOk tt)).
    { eapply footer_wsem; [apply sem_osc_footer|reflexivity]. }
    exact H.
  - apply wsem_nil; reflexivity.
Qed.

(** ** Histories *)

Definition out (w : writer) : bytes := s_out (w_sink w).

Fixpoint steps (step : call -> wstate -> list (str * str) -> str * wstate * list (str * str) * wres unit)
    (cs : list call) (st : wstate) (h : list (str * str))
    : str * wstate * list (str * str) * list (wres unit) :=
  match cs with
  | [] => ([], st, h, [])
  | c :: r =>
      let '(t, st1, h1, x) := step c st h in
      let '(t', st2, h2, xs) := steps step r st1 h1 in
      (t ++ t', st2, h2, x :: xs)
  end.

Lemma run_uncapped f step : refines f step -> forall cs st h o,
  let '(t, st', h', rs) := steps step cs st h in
  run_calls f (Writer (Sink o None) h st) cs = (Writer (Sink (o ++ utf8 t) None) h' st', rs).
Proof.
  intros R. induction cs as [|c cs IH]; intros st h o; cbn [steps run_calls].
  - cbn. now rewrite app_nil_r.
  - pose proof (R c st h) as Hc. destruct (step c st h) as [[[t st1] h1] x].
    destruct Hc as [H1 _]. specialize (IH st1 h1 (o ++ utf8 t)).
    destruct (steps step cs st1 h1) as [[[t' st2] h2] xs].
    cbv beta in H1. rewrite H1, IH. now rewrite utf8_app, app_assoc.
Qed.

Lemma run_full f step : refines f step -> forall cs st h o,
  out (fst (run_calls f (Writer (Sink o (Some O)) h st) cs)) = o.
Proof.
  intros R. induction cs as [|c cs IH]; intros st h o; cbn [run_calls]; [easy|].
  pose proof (R c st h) as Hc. destruct (step c st h) as [[[t st1] h1] x].
  destruct Hc as [_ [H2 H3]].
  destruct (utf8 t) as [|b bs] eqn:Et.
  - specialize (H2 o O (le_n _)). cbv beta in H2. rewrite H2. cbn [length Nat.sub]. rewrite app_nil_r.
    specialize (IH st1 h1 o).
    destruct (run_calls f (Writer (Sink o (Some O)) h1 st1) cs) as [w2 xs]. exact IH.
  - destruct (H3 o O ltac:(cbn; lia)) as (h2 & s2 & E & _). cbv beta in E. rewrite E.
    cbn [firstn]. rewrite app_nil_r. specialize (IH s2 h2 o).
    destruct (run_calls f (Writer (Sink o (Some O)) h2 s2) cs) as [w2 xs]. exact IH.
Qed.

Lemma run_capped f step : refines f step -> forall cs st h o n,
  let '(t, st', h', rs) := steps step cs st h in
  out (fst (run_calls f (Writer (Sink o (Some n)) h st) cs)) = o ++ firstn n (utf8 t).
Proof.
  intros R. induction cs as [|c cs IH]; intros st h o n; cbn [steps run_calls].
  - cbn. now rewrite firstn_nil, app_nil_r.
  - pose proof (R c st h) as Hc. destruct (step c st h) as [[[t st1] h1] x].
    destruct Hc as [_ [H2 H3]].
    specialize (IH st1 h1).
    destruct (steps step cs st1 h1) as [[[t' st2] h2] xs].
    rewrite utf8_app, firstn_app.
    destruct (Nat.leb (length (utf8 t)) n) eqn:E.
    + apply Nat.leb_le in E. rewrite (firstn_all2 (utf8 t)) by lia.
      specialize (H2 o n E). cbv beta in H2. rewrite H2.
      specialize (IH (o ++ utf8 t) (n - length (utf8 t))%nat).
      destruct (run_calls _ _ cs). cbn [fst] in *. now rewrite IH, app_assoc.
    + apply Nat.leb_gt in E. destruct (H3 o n E) as (h3 & s3 & E3 & _).
      cbv beta in E3. rewrite E3. replace (n - length (utf8 t))%nat with O by lia.
      cbn [firstn]. rewrite app_nil_r.
      pose proof (run_full f step R cs s3 h3 (o ++ firstn n (utf8 t))) as F.
      destruct (run_calls _ _ cs). exact F.
Qed.

Lemma run_grows f step : refines f step -> forall cs st h o,
  (length o <= length (out (fst (run_calls f (Writer (Sink o None) h st) cs))))%nat.
Proof.
  intros R cs st h o. pose proof (run_uncapped f step R cs st h o) as H.
  destruct (steps step cs st h) as [[[t st'] h'] rs]. rewrite H. cbn. rewrite app_length. lia.
Qed.

Lemma run_results f step : refines f step -> forall cs st h o n k, (k < length cs)%nat ->
  let len j := length (out (fst (run_calls f (Writer (Sink o None) h st) (firstn j cs)))) in
  let ru := snd (run_calls f (Writer (Sink o None) h st) cs) in
  let rc := snd (run_calls f (Writer (Sink o (Some n)) h st) cs) in
  ((len (S k) <= length o + n)%nat -> nth_error rc k = nth_error ru k) /\
  ((len k <= length o + n < len (S k))%nat -> nth_error rc k = Some (WErr EIo)).
Proof.
  intros R. induction cs as [|c cs IH]; intros st h o n k Hk; cbn [length] in Hk; [lia|].
  cbv zeta. cbn [run_calls].
  pose proof (R c st h) as Hc. destruct (step c st h) as [[[t st1] h1] x].
  destruct Hc as [H1 [H2 H3]]. specialize (H1 o). cbv beta in *.
  destruct k as [|k].
  - cbn [firstn run_calls]. rewrite H1. cbn [fst out w_sink s_out].
    assert (E0 : forall a b : list (wres unit), nth_error (x :: a) 0 = nth_error (x :: b) 0) by easy.
    destruct (Nat.leb (length (utf8 t)) n) eqn:E.
    + apply Nat.leb_le in E. rewrite (H2 o n E).
      destruct (run_calls f _ cs) as [wa xa]. destruct (run_calls f _ cs) as [wb xb].
      cbn. rewrite app_length. split; [easy|lia].
    + apply Nat.leb_gt in E. destruct (H3 o n E) as (h3 & s3 & E3 & _). rewrite E3.
      destruct (run_calls f _ cs) as [wa xa]. destruct (run_calls f _ cs) as [wb xb].
      cbn. rewrite app_length. split; [lia|easy].
  - cbn [firstn run_calls]. rewrite H1.
    specialize (IH st1 h1 (o ++ utf8 t) (n - length (utf8 t))%nat k ltac:(lia)).
    cbv zeta in IH.
    assert (G : forall j, (length (o ++ utf8 t) <= length (out (fst (run_calls f
      (Writer (Sink (o ++ utf8 t) None) h1 st1) (firstn j cs)))))%nat)
      by (intros j; apply (run_grows f step R)).
    assert (D : forall w l, length (out (fst (let '(w2, xs) := run_calls f w l in (w2, x :: xs))))
      = length (out (fst (run_calls f w l)))) by (intros w l; destruct (run_calls f w l); reflexivity).
    assert (Gk := G k). assert (GSk := G (S k)). clear G. cbn [firstn] in GSk.
    rewrite app_length in *.
    destruct (Nat.leb (length (utf8 t)) n) eqn:E.
    + apply Nat.leb_le in E. rewrite (H2 o n E). rewrite !D.
      replace (length o + length (utf8 t) + (n - length (utf8 t)))%nat with (length o + n)%nat in IH by lia.
      destruct (run_calls f _ cs) as [wa xa]. destruct (run_calls f _ cs) as [wb xb]. exact IH.
    + apply Nat.leb_gt in E. rewrite !D. split; lia.
Qed.

(** ** The output in terms of the history *)

Lemma steps_closed_xml ord cs h :
  let '(t, st, h', rs) := steps (xml_step ord) cs Closed h in
  t = concat (repeat xml_closing (closes cs)) /\ st = Closed /\ h' = h.
Proof.
  induction cs as [|c cs IH]; [repeat split|]. cbn [steps].
  destruct c as [k v|o|]; cbn [xml_step];
    destruct (steps (xml_step ord) cs Closed h) as [[[t st] h'] rs];
    destruct IH as (-> & -> & ->); unfold closes; cbn [filter is_close length repeat concat];
    repeat split; reflexivity.
Qed.

Lemma steps_writing_xml ord cs h :
  let '(t, st, h', rs) := steps (xml_step ord) cs WritingObjects h in
  t = flat_map write_text (written cs) ++ concat (repeat xml_closing (closes cs))
  /\ st = (if closed cs then Closed else WritingObjects) /\ h' = h.
Proof.
  induction cs as [|c cs IH]; [easy|]. cbn [steps].
  destruct c as [k v|o|]; cbn [xml_step].
  - destruct (steps (xml_step ord) cs WritingObjects h) as [[[t st] h'] rs].
    destruct IH as (-> & -> & ->). unfold closes, closed.
    cbn [filter is_close existsb orb written]. easy.
  - destruct (steps (xml_step ord) cs WritingObjects h) as [[[t st] h'] rs].
    destruct IH as (-> & -> & ->). unfold closes, closed.
    cbn [filter is_close existsb orb written flat_map]. now rewrite app_assoc.
  - pose proof (steps_closed_xml ord cs h) as H.
    destruct (steps (xml_step ord) cs Closed h) as [[[t st] h'] rs].
    destruct H as (-> & -> & ->). unfold closes, closed.
    cbn [filter is_close existsb orb written flat_map length repeat concat app]. easy.
Qed.

(** The entries after the header calls. *)
Definition headers_of (l h : list (str * str)) : list (str * str) :=
  fold_left (fun h p => map_insert (fst p) (snd p) h) l h.

Lemma steps_initial_xml ord cs h :
  let '(t, st, h', rs) := steps (xml_step ord) cs Initial h in
  t = (if started cs then xml_opening (ord (headers_of (header_calls cs) h))
         ++ flat_map write_text (written cs) ++ concat (repeat xml_closing (closes cs))
       else [])
  /\ st = (if closed cs then Closed else if started cs then WritingObjects else Initial)
  /\ h' = headers_of (header_calls cs) h.
Proof.
  revert h. induction cs as [|c cs IH]; intros h; [easy|]. cbn [steps].
  destruct c as [k v|o|]; cbn [xml_step].
  - specialize (IH (map_insert k v h)).
    destruct (steps (xml_step ord) cs Initial (map_insert k v h)) as [[[t st] h'] rs].
    destruct IH as (-> & -> & ->).
    unfold closes, closed, started.
    cbn [filter is_close is_set negb existsb orb written header_calls headers_of fold_left fst snd app].
    easy.
  - pose proof (steps_writing_xml ord cs h) as H.
    destruct (steps (xml_step ord) cs WritingObjects h) as [[[t st] h'] rs].
    destruct H as (-> & -> & ->).
    unfold closes, closed, started.
    cbn [filter is_close is_set negb existsb orb written header_calls headers_of fold_left flat_map].
    rewrite <- !app_assoc. easy.
  - pose proof (steps_closed_xml ord cs h) as H.
    destruct (steps (xml_step ord) cs Closed h) as [[[t st] h'] rs].
    destruct H as (-> & -> & ->).
    unfold closes, closed, started.
    cbn [filter is_close is_set negb existsb orb written header_calls headers_of fold_left flat_map
      length repeat concat].
    rewrite <- !app_assoc. easy.
Qed.

Lemma steps_closed_osc cs h :
  let '(t, st, h', rs) := steps osc_step cs Closed h in t = [] /\ st = Closed /\ h' = h.
Proof.
  induction cs as [|c cs IH]; [easy|]. cbn [steps].
  destruct c as [k v|o|]; cbn [osc_step];
    destruct (steps osc_step cs Closed h) as [[[t st] h'] rs];
    destruct IH as (-> & -> & ->); easy.
Qed.

Lemma steps_writing_osc cs h :
  let '(t, st, h', rs) := steps osc_step cs WritingObjects h in
  t = flat_map write_text (written cs) ++ (if closed cs then osc_closing else [])
  /\ st = (if closed cs then Closed else WritingObjects) /\ h' = h.
Proof.
  induction cs as [|c cs IH]; [easy|]. cbn [steps].
  destruct c as [k v|o|]; cbn [osc_step].
  - destruct (steps osc_step cs WritingObjects h) as [[[t st] h'] rs].
    destruct IH as (-> & -> & ->). unfold closed. cbn [is_close existsb orb written]. easy.
  - destruct (steps osc_step cs WritingObjects h) as [[[t st] h'] rs].
    destruct IH as (-> & -> & ->). unfold closed.
    cbn [is_close existsb orb written flat_map]. now rewrite app_assoc.
  - pose proof (steps_closed_osc cs h) as H.
    destruct (steps osc_step cs Closed h) as [[[t st] h'] rs].
    destruct H as (-> & -> & ->). unfold closed.
    cbn [is_close existsb orb written flat_map app]. now rewrite app_nil_r.
Qed.

Lemma steps_initial_osc cs h :
  let '(t, st, h', rs) := steps osc_step cs Initial h in
  t = (if started cs then osc_opening ++ flat_map write_text (written cs)
         ++ (if closed cs then osc_closing else []) else [])
  /\ st = (if closed cs then Closed else if started cs then WritingObjects else Initial)
  /\ h' = h.
Proof.
  induction cs as [|c cs IH]; [easy|]. cbn [steps].
  destruct c as [k v|o|]; cbn [osc_step].
  - destruct (steps osc_step cs Initial h) as [[[t st] h'] rs].
    destruct IH as (-> & -> & ->). unfold closed, started.
    cbn [is_close is_set negb existsb orb written app]. easy.
  - pose proof (steps_writing_osc cs h) as H.
    destruct (steps osc_step cs WritingObjects h) as [[[t st] h'] rs].
    destruct H as (-> & -> & ->). unfold closed, started.
    cbn [is_close is_set negb existsb orb written flat_map].
    rewrite <- !app_assoc. easy.
  - pose proof (steps_closed_osc cs h) as H.
    destruct (steps osc_step cs Closed h) as [[[t st] h'] rs].
    destruct H as (-> & -> & ->). unfold closed, started.
    cbn [is_close is_set negb existsb orb written flat_map app].
    rewrite app_nil_r. easy.
Qed.

(** ** Headers *)

Lemma map_insert_keys k v l : forall x, In x (map fst (map_insert k v l)) <-> x = k \/ In x (map fst l).
Proof.
  intros x. induction l as [|[k' v'] l IH]; cbn.
  - intuition.
  - destruct (str_eqb k' k) eqn:E; cbn.
    + apply str_eqb_eq in E as ->. intuition.
    + rewrite IH. intuition.
Qed.

Lemma map_insert_nodup k v l : NoDup (map fst l) -> NoDup (map fst (map_insert k v l)).
Proof.
  induction l as [|[k' v'] l IH]; cbn; intros H.
  - repeat constructor. easy.
  - inv H. destruct (str_eqb k' k) eqn:E; cbn.
    + apply str_eqb_eq in E as ->. now constructor.
    + constructor; [|now apply IH]. rewrite map_insert_keys. apply str_eqb_neq in E.
      intros [-> | H]; [now elim E|easy].
Qed.

Lemma map_insert_in k v l : NoDup (map fst l) -> forall x y,
  In (x, y) (map_insert k v l) <-> (x = k /\ y = v) \/ (x <> k /\ In (x, y) l).
Proof.
  induction l as [|[k' v'] l IH]; cbn; intros H x y.
  - split; [intros [[= -> ->]|[]]; auto|]. intros [[-> ->]|[_ []]]; auto.
  - inv H. destruct (str_eqb k' k) eqn:E; cbn.
    + apply str_eqb_eq in E as ->. split.
      * intros [[= -> ->]|Hin]; [auto|]. right. split; [|auto].
        intros ->. apply H2. apply (in_map fst _ _ Hin).
      * intros [[-> ->]|[Hne [[= -> ->]|Hin]]]; auto. now elim Hne.
    + apply str_eqb_neq in E. rewrite (IH H3). split.
      * intros [[= -> ->]|[[-> ->]|[Hne Hin]]]; auto.
      * intros [[-> ->]|[Hne [[= -> ->]|Hin]]]; auto.
Qed.

Lemma headers_of_map l : forall h acc,
  NoDup (map fst h) -> (forall k v, In (k, v) h <-> acc k = Some v) ->
  NoDup (map fst (headers_of l h)) /\
  forall k v, In (k, v) (headers_of l h) <->
    fold_left (fun a p => if str_eqb (fst p) k then Some (snd p) else a) l (acc k) = Some v.
Proof.
  induction l as [|[k0 v0] l IH]; intros h acc Hn Hacc; cbn [headers_of fold_left fst snd]; [easy|].
  specialize (IH (map_insert k0 v0 h) (fun k => if str_eqb k0 k then Some v0 else acc k)
    (map_insert_nodup _ _ _ Hn)).
  destruct IH as [I1 I2]; [|split; [exact I1|]].
  - intros k v. rewrite map_insert_in by easy.
    destruct (str_eqb k0 k) eqn:E.
    + apply str_eqb_eq in E as ->. split; [intros [[_ ->]|[[] _]]; easy|intros [= ->]; auto].
    + apply str_eqb_neq in E. rewrite <- Hacc. split; [intros [[-> _]|[_ H]]; easy|].
      intros H. right. split; [congruence|easy].
  - intros k v. exact (I2 k v).
Qed.

Lemma headers_of_spec l : header_map (headers_of l []) l.
Proof.
  unfold header_map, last_value.
  destruct (headers_of_map l [] (fun _ => None)) as [H1 H2]; [constructor|easy|].
  split; [exact H1|exact H2].
Qed.
