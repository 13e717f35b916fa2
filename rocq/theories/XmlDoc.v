(** Tokenizing XML documents of any layout: the texts of [SpecXmlDoc.document] are
    read as their elements. *)
From Coq Require Import String ZArith List Bool Lia.
From Coq Require Import ZifyBool ZifyNat.
From Verif Require Import Base Utf8 Obj XmlToken SpecXmlRead XmlRound.
From Verif Require DumpFacts.
From Verif Require Import SpecXmlRef XmlRef SpecXmlDoc.
Import ListNotations.
Open Scope Z_scope.

Scheme element_mind := Induction for element Sort Prop
  with content_mind := Induction for content Sort Prop.
Combined Scheme doc_mind from element_mind, content_mind.

Definition xchars (s : str) : Prop := Forall (fun c => xml_char c = true) s.
Lemma legal_xchars t : Forall legal t <-> xchars t.
Proof. unfold xchars. rewrite !Forall_forall. split; intros H c Hc; apply legal_iff; auto. Qed.
Lemma blank_iff c : blank c <-> ws c = true.
Proof. unfold blank, ws. cbn [In]. lia. Qed.
Lemma blank_xml c : blank c -> xml_char c = true.
Proof. rewrite blank_iff. unfold ws, xml_char. lia. Qed.
Lemma xapp a b : xchars (a ++ b) <-> xchars a /\ xchars b.
Proof. unfold xchars. apply Forall_app. Qed.

(** The events that are about elements. *)
Definition elem_event (e : event) : bool := match e with EOther _ => false | _ => true end.
Definition strip (l : list event) : list event := filter elem_event l.
Lemma strip_app a b : strip (a ++ b) = strip a ++ strip b.
Proof. unfold strip. apply filter_app. Qed.
Lemma strip_flush b : strip (flush b) = [].
Proof. now destruct b. Qed.
Lemma elem_events_strip : forall e, strip (elem_events e) = elem_events e.
Proof.
  fix IH 1. intros [n l kids]. cbn [elem_events strip filter elem_event]. f_equal.
  change (strip (flat_map elem_events kids ++ [EEnd n]) = flat_map elem_events kids ++ [EEnd n]).
  rewrite strip_app. f_equal.
  induction kids as [|e kids IHk]; [reflexivity|]. cbn [flat_map]. now rewrite strip_app, IH, IHk.
Qed.

Section Forward.
Variable aw : char -> char.
Notation run := (trun aw).

Ltac sx Hx := rewrite run_cons; unfold tstep at 1; rewrite Hx; cbn [negb p_mode]; unfold goto; cbn [p_stack p_rooted p_evs].

(** ** Values *)

Lemma refers_xml n c : refers n c -> xchars n.
Proof.
  intros H.
  assert (D : forall b t ds, Forall2 (digit b) t ds -> xchars t).
  { induction 1 as [|x d t ds Hd _ IH]; constructor; [|exact IH]. apply legal_iff. unfold legal. inversion Hd; lia. }
  destruct H as [[-> _]|[[-> _]|[[-> _]|[[-> _]|[[-> _]|(_ & t & [[-> (_ & ds & F & _)]|[-> (_ & ds & F & _)]])]]]]];
    try (repeat constructor); eapply D; eauto.
Qed.

Lemma run_val_ref n l a q v st r ev s : xchars s -> ~ In 59 s -> forall s0,
  run (P (MValRef n l a q v s0) st r ev) s = P (MValRef n l a q v (s0 ++ s)) st r ev.
Proof.
  induction 1 as [|c s Hx _ IH]; intros N s0; [now rewrite app_nil_r|].
  sx Hx. assert (c =? 59 = false) as -> by (apply Z.eqb_neq; intros ->; apply N; now left).
  rewrite IH by (intros I; apply N; now right). now rewrite <- app_assoc.
Qed.

Lemma run_value_any q u v : q = 34 \/ q = 39 -> value aw q u v -> xchars u -> forall n l a v0 st r ev,
  run (P (MVal n l a q v0) st r ev) u = P (MVal n l a q (v0 ++ v)) st r ev.
Proof.
  intros Hq. induction 1 as [|c t v H1 H2 H3 _ IH|m c t v Hr _ IH]; intros Hx n l a v0 st r ev.
  - now rewrite app_nil_r.
  - inv Hx. sx H4. replace (c =? q) with false by lia. replace (c =? 38) with false by lia. replace (c =? 60) with false by lia.
    rewrite IH by easy. now rewrite <- app_assoc.
  - apply xapp in Hx as [_ Hx]. apply xapp in Hx as [Hx1 Hx]. apply xapp in Hx as [_ Hx2].
    rewrite !run_app.
    replace (run (P (MVal n l a q v0) st r ev) (lit "&")) with (P (MValRef n l a q v0 []) st r ev) by (destruct Hq as [-> | ->]; reflexivity).
    rewrite run_val_ref by (eauto using refers_no_semi). cbn [app].
    assert (E : run (P (MValRef n l a q v0 m) st r ev) (lit ";") = P (MVal n l a q (v0 ++ [c])) st r ev).
    { change (lit ";") with [59]. rewrite run_cons. unfold tstep. change (xml_char 59) with true. cbn [negb p_mode].
      change (59 =? 59) with true. cbn iota. apply reference_iff in Hr. now rewrite Hr. }
    rewrite E, IH by easy. now rewrite <- app_assoc.
Qed.

(** ** Attributes *)

Definition at_head (n : str) (l : list (str * str)) (m : mode) : Prop :=
  (l = [] /\ m = MOpenName n) \/ exists sp, m = MInTag n l sp.

Lemma run_in_tag w n l st r ev : blanks w -> run (P (MInTag n l true) st r ev) w = P (MInTag n l true) st r ev.
Proof.
  induction 1 as [|c w Hc _ IH]; [reflexivity|]. pose proof (blank_xml c Hc) as Hx. apply blank_iff in Hc.
  sx Hx. rewrite Hc. exact IH.
Qed.

Lemma blank_not_name c : blank c -> name_char c = false.
Proof. rewrite blank_iff. unfold ws, name_char, name_start. lia. Qed.

Lemma run_head_ws n l m w st r ev : at_head n l m -> blanks w -> w <> [] ->
  run (P m st r ev) w = P (MInTag n l true) st r ev.
Proof.
  intros Hm Hw Hn. destruct w as [|c w]; [easy|]. inv Hw.
  pose proof (blank_xml c H1) as Hx. pose proof (blank_not_name c H1) as Hc. apply blank_iff in H1.
  destruct Hm as [[-> ->]|(sp & ->)]; sx Hx; rewrite ?Hc, H1; now apply run_in_tag.
Qed.

Lemma run_attr_eq n l a w st r ev : blanks w -> run (P (MAttrEq n l a) st r ev) w = P (MAttrEq n l a) st r ev.
Proof.
  induction 1 as [|c w Hc _ IH]; [reflexivity|]. pose proof (blank_xml c Hc) as Hx. apply blank_iff in Hc.
  sx Hx. rewrite Hc. exact IH.
Qed.

Lemma run_before_val n l a w st r ev : blanks w -> run (P (MBeforeVal n l a) st r ev) w = P (MBeforeVal n l a) st r ev.
Proof.
  induction 1 as [|c w Hc _ IH]; [reflexivity|]. pose proof (blank_xml c Hc) as Hx. apply blank_iff in Hc.
  sx Hx. rewrite Hc. exact IH.
Qed.

Lemma run_name_eq n l a w st r ev : blanks w ->
  run (P (MAttrName n l a) st r ev) (w ++ lit "=") = P (MBeforeVal n l a) st r ev.
Proof.
  intros Hw. destruct Hw as [|c w Hc Hw]; [reflexivity|]. cbn [app].
  pose proof (blank_xml c Hc) as Hx. pose proof (blank_not_name c Hc) as Hn. apply blank_iff in Hc. sx Hx.
  rewrite Hn, Hc. replace (c =? 61) with false by (unfold ws in Hc; lia). rewrite run_app, run_attr_eq by easy. reflexivity.
Qed.

Lemma has_attr_new a l l' v : NoDup (map fst (l ++ (a, v) :: l')) -> has_attr a l = false.
Proof.
  intros Hn. destruct (has_attr a l) eqn:E; [|reflexivity]. apply has_attr_in in E.
  rewrite map_app in Hn. cbn in Hn. apply NoDup_remove_2 in Hn. elim Hn. apply in_or_app. now left.
Qed.

Lemma run_attributes l' t : attributes aw l' t -> xchars t -> forall n l m st r ev, at_head n l m -> NoDup (map fst (l ++ l')) ->
  exists m', at_head n (l ++ l') m' /\ run (P m st r ev) t = P m' st r ev.
Proof.
  induction 1 as [|w1 k w2 w3 q u v l' t H1 H2 H3 H4 H5 H6 H7 _ IH]; intros Hx n l m st r ev Hm Hn.
  - exists m. rewrite app_nil_r. easy.
  - destruct (IH) with (n := n) (l := l ++ [(k, v)]) (m := MInTag n (l ++ [(k, v)]) false) (st := st) (r := r) (ev := ev)
      as (m' & Hm' & E).
    + repeat (apply xapp in Hx as [_ Hx]). exact Hx.
    + right. now exists false.
    + now rewrite <- app_assoc.
    + exists m'. split; [now rewrite <- app_assoc in Hm'|]. rewrite <- E. clear E IH Hm'.
      rewrite run_app, (run_head_ws n l m w1) by easy.
      destruct k as [|c k]; [easy|]. apply xml_name_cases in H3 as (Hs & Hc & Hk).
      pose proof (Forall_inv Hk) as Hk1. pose proof (Forall_inv_tail Hk) as Hk2. clear Hk. cbn beta in Hk1.
      pose proof (name_start_facts c Hs) as (F1 & F2 & F3 & _).
      cbn [app]. sx Hk1. rewrite F1, F2, F3, Hs. cbn [andb].
      rewrite run_app, run_attr_name by easy. cbn [app].
      rewrite app_assoc, run_app, run_name_eq by easy. rewrite run_app, run_before_val by easy.
      rewrite run_cons. replace (tstep aw (P (MBeforeVal n l (c :: k)) st r ev) q) with (P (MVal n l (c :: k) q []) st r ev)
        by (destruct H6 as [-> | ->]; reflexivity).
      rewrite run_app, (run_value_any q u v); auto.
      2:{ do 6 (apply xapp in Hx as [_ Hx]). now apply xapp in Hx as [Hx _]. }
      cbn [app]. rewrite run_cons. f_equal. unfold tstep.
      replace (xml_char q) with true by (destruct H6 as [-> | ->]; reflexivity). cbn [negb p_mode]. rewrite Z.eqb_refl.
      now rewrite (has_attr_new _ _ _ _ Hn).
Qed.

Lemma run_tag_head n l h st r ev : tag_head aw n l h -> xchars h -> st <> [] \/ r = false ->
  exists m, at_head n l m /\ run (P MLt st r ev) h = P m st r ev.
Proof.
  intros (a & w & -> & Hn & Ha & Hd & Hw) Hx Hr.
  apply xapp in Hx as [_ Hx]. apply xapp in Hx as [Hx _].
  assert (E : run (P MLt st r ev) n = P (MOpenName n) st r ev).
  { destruct n as [|c n]; [easy|]. apply xml_name_cases in Hn as (Hs & Hc & Hk). inv Hk.
    pose proof (name_start_facts c Hs) as (F1 & F2 & F3 & F4 & F5). sx H1. rewrite F3, F4, F5, Hs.
    replace (match st with [] => if r then P MErr st r ev else P (MOpenName [c]) st r ev | _ :: _ => P (MOpenName [c]) st r ev end)
      with (P (MOpenName [c]) st r ev) by (destruct st; [destruct Hr as [Hr | ->]; easy|easy]).
    now rewrite run_open_name. }
  rewrite run_app, E, run_app.
  destruct (run_attributes l a Ha Hx n [] (MOpenName n) st r ev) as (m & Hm & ->); [now left|exact Hd|]. cbn [app] in Hm.
  destruct w as [|c w]; [now exists m|]. exists (MInTag n l true). split; [right; now exists true|]. now apply run_head_ws.
Qed.

(** ** Comments, processing instructions, CDATA *)

Lemma run_comment_text c : xchars c -> forall k st r ev, (k <= 1)%nat ->
  (forall a b, repeat 45 k ++ c ++ [45] <> a ++ [45; 45] ++ b) ->
  run (P (MComment k) st r ev) c = P (MComment 0) st r ev.
Proof.
  induction 1 as [|x c Hx _ IH]; intros k st r ev Hk Hc.
  - destruct k as [|[|k]]; [reflexivity| |lia]. elim (Hc [] []). reflexivity.
  - sx Hx. replace (Nat.leb 2 k) with false by lia. destruct (x =? 45) eqn:E.
    + apply Z.eqb_eq in E as ->. destruct k as [|[|k]]; [| |lia].
      * apply IH; [lia|]. exact Hc.
      * elim (Hc [] (c ++ [45])). reflexivity.
    + apply IH; [lia|]. intros a b H. elim (Hc (repeat 45 k ++ x :: a) b). cbn [repeat app] in H. cbn [app].
      rewrite H. now rewrite <- app_assoc.
Qed.

Lemma run_comment t buf st r ev : comment t -> xchars t ->
  run (P (MText buf) st r ev) t = P (MText []) st r (ev ++ flush buf).
Proof.
  intros [c Hc] Hx. apply xapp in Hx as [_ Hx]. apply xapp in Hx as [Hx _].
  rewrite !run_app.
  change (run (P (MText buf) st r ev) (lit "<!--")) with (P (MComment 0) st r (ev ++ flush buf)).
  rewrite run_comment_text; [reflexivity|exact Hx|lia|exact Hc].
Qed.

Lemma rep_snoc k (x : char) l : (0 < k)%nat -> repeat x k ++ l = repeat x (pred k) ++ x :: l.
Proof. intros H. destruct k as [|k]; [lia|]. cbn [pred repeat app]. induction k as [|k IH]; [reflexivity|]. cbn [repeat app]. now rewrite IH by lia. Qed.

Lemma run_cdata_text c : xchars c -> forall k st r ev,
  (forall a b, repeat 93 k ++ c <> a ++ lit "]]>" ++ b) ->
  exists k', run (P (MCdata k) st r ev) c = P (MCdata k') st r ev.
Proof.
  induction 1 as [|x c Hx _ IH]; intros k st r ev Hc; [now exists k|].
  sx Hx. destruct (x =? 93) eqn:E.
  - apply Z.eqb_eq in E as ->. apply IH. intros a b H. elim (Hc a b). rewrite <- H.
    now rewrite (rep_snoc (S k)) by lia.
  - destruct ((x =? 62) && Nat.leb 2 k) eqn:E2.
    + exfalso. destruct k as [|[|k]]; [lia|lia|]. assert (x = 62) as -> by lia.
      apply (Hc (repeat 93 k) c). rewrite (rep_snoc (S (S k))), (rep_snoc (S k)) by lia. cbn [Nat.pred].
      reflexivity.
    + apply IH. intros a b H. elim (Hc (repeat 93 k ++ x :: a) b). cbn [repeat app] in H. rewrite H. now rewrite <- app_assoc.
Qed.

Lemma run_cdata t buf n st r ev : cdata t -> xchars t ->
  run (P (MText buf) (n :: st) r ev) t = P (MText []) (n :: st) r ((ev ++ flush buf) ++ [EOther []]).
Proof.
  intros [c Hc] Hx. apply xapp in Hx as [_ Hx]. apply xapp in Hx as [Hx _].
  rewrite !run_app.
  change (run (P (MText buf) (n :: st) r ev) (lit "<![CDATA[")) with (P (MCdata 0) (n :: st) r (ev ++ flush buf)).
  destruct (run_cdata_text c Hx 0 (n :: st) r (ev ++ flush buf)) as (k & ->); [|reflexivity].
  intros a b H. exact (DumpFacts.ended_no (lit "]]>") c ltac:(discriminate) Hc a b H).
Qed.

Lemma run_pi_text c : xchars c -> forall (q : bool) st r ev,
  (forall a b, (if q then [63] else []) ++ c <> a ++ lit "?>" ++ b) ->
  exists q', run (P (MPI q) st r ev) c = P (MPI q') st r ev.
Proof.
  induction 1 as [|x c Hx _ IH]; intros q st r ev Hc; [now exists q|].
  sx Hx. destruct (x =? 63) eqn:E.
  - apply Z.eqb_eq in E as ->. apply IH. intros a b H. elim (Hc ((if q then [63] else []) ++ a) b).
    cbn [app] in H. rewrite H. now rewrite <- app_assoc.
  - destruct ((x =? 62) && q) eqn:E2.
    + exfalso. assert (x = 62) as -> by lia. destruct q; [|now rewrite andb_false_r in E2]. exact (Hc [] c eq_refl).
    + apply IH. intros a b H. elim (Hc ((if q then [63] else []) ++ x :: a) b). cbn [app] in H. rewrite H. now rewrite <- app_assoc.
Qed.

Lemma run_instruction t buf st r ev : instruction t -> xchars t ->
  run (P (MText buf) st r ev) t = P (MText []) st r ((ev ++ flush buf) ++ [EOther []]).
Proof.
  intros [c Hc] Hx. apply xapp in Hx as [_ Hx]. apply xapp in Hx as [Hx _].
  rewrite !run_app.
  change (run (P (MText buf) st r ev) (lit "<?")) with (P (MPI false) st r (ev ++ flush buf)).
  destruct (run_pi_text c Hx false st r (ev ++ flush buf)) as (k & ->); [|reflexivity].
  intros a b H. exact (DumpFacts.ended_no (lit "?>") c ltac:(discriminate) Hc a b H).
Qed.

(** ** Elements *)

Lemma run_text_ref s : xchars s -> ~ In 59 s -> forall buf s0 st r ev,
  run (P (MTextRef buf s0) st r ev) s = P (MTextRef buf (s0 ++ s)) st r ev.
Proof.
  induction 1 as [|c s Hx _ IH]; intros N buf s0 st r ev; [now rewrite app_nil_r|].
  sx Hx. assert (c =? 59 = false) as -> by (apply Z.eqb_neq; intros ->; apply N; now left).
  rewrite IH by (intros I; apply N; now right). now rewrite <- app_assoc.
Qed.

Lemma run_close_ws n w st r ev : blanks w -> run (P (MCloseWs n) st r ev) w = P (MCloseWs n) st r ev.
Proof.
  induction 1 as [|c w Hc _ IH]; [reflexivity|]. pose proof (blank_xml c Hc) as Hx. apply blank_iff in Hc.
  sx Hx. rewrite Hc. exact IH.
Qed.

Lemma run_close n w st r ev : xml_name n -> blanks w ->
  run (P MCloseStart (n :: st) r ev) (n ++ w ++ lit ">") = P (MText []) st r (ev ++ [EEnd n]).
Proof.
  intros Hn Hw. rewrite run_app.
  assert (E : run (P MCloseStart (n :: st) r ev) n = P (MCloseName n) (n :: st) r ev).
  { destruct n as [|c n]; [easy|]. apply xml_name_cases in Hn as (Hs & Hc & Hk). inv Hk. sx H1. rewrite Hs.
    now rewrite run_close_name. }
  rewrite E, run_app.
  assert (C : close_element n (P (MCloseName n) (n :: st) r ev) = P (MText []) st r (ev ++ [EEnd n])
    /\ close_element n (P (MCloseWs n) (n :: st) r ev) = P (MText []) st r (ev ++ [EEnd n])).
  { unfold close_element. cbn [p_stack p_rooted p_evs]. rewrite str_eqb_refl. split; reflexivity. }
  destruct Hw as [|c w Hc Hw].
  - exact (proj1 C).
  - pose proof (blank_xml c Hc) as Hx. pose proof (blank_not_name c Hc) as Hn'. apply blank_iff in Hc. sx Hx. rewrite Hn', Hc.
    rewrite run_close_ws by easy. exact (proj2 C).
Qed.

Lemma run_at_gt n l m st r ev : at_head n l m ->
  run (P m st r ev) (lit ">") = P (MText []) (n :: st) true (ev ++ [EStart n l]).
Proof. intros [[-> ->]|([|] & ->)]; reflexivity. Qed.
Lemma run_at_slash n l m st r ev : at_head n l m ->
  run (P m st r ev) (lit "/>") = P (MText []) st true (ev ++ [EStart n l; EEnd n]).
Proof. intros [[-> ->]|([|] & ->)]; reflexivity. Qed.

Lemma run_doc :
  (forall e t, element aw e t -> xchars t -> forall buf st r ev, st <> [] \/ r = false ->
     exists ev', run (P (MText buf) st r ev) t = P (MText []) st true ev' /\ strip ev' = strip ev ++ elem_events e) /\
  (forall es t, content aw es t -> xchars t -> forall buf n st ev,
     exists buf' ev', run (P (MText buf) (n :: st) true ev) t = P (MText buf') (n :: st) true ev'
       /\ strip ev' = strip ev ++ flat_map elem_events es).
Proof.
  apply doc_mind.
  - intros n l h Hh Hx buf st r ev Hr. apply xapp in Hx as [_ Hx]. apply xapp in Hx as [Hx _].
    rewrite run_app. change (run (P (MText buf) st r ev) (lit "<")) with (P MLt st r (ev ++ flush buf)).
    rewrite run_app. destruct (run_tag_head n l h st r (ev ++ flush buf) Hh Hx Hr) as (m & Hm & ->).
    rewrite (run_at_slash n l) by exact Hm. eexists. split; [reflexivity|]. rewrite !strip_app, strip_flush, app_nil_r. reflexivity.
  - intros n l h es body w Hh Hc IH Hw Hx buf st r ev Hr.
    apply xapp in Hx as [_ Hx]. apply xapp in Hx as [Hx1 Hx]. apply xapp in Hx as [_ Hx]. apply xapp in Hx as [Hx2 _].
    rewrite run_app. change (run (P (MText buf) st r ev) (lit "<")) with (P MLt st r (ev ++ flush buf)).
    rewrite run_app. destruct (run_tag_head n l h st r (ev ++ flush buf) Hh Hx1 Hr) as (m & Hm & ->).
    rewrite run_app, (run_at_gt n l) by exact Hm.
    rewrite run_app. destruct (IH Hx2 [] n st ((ev ++ flush buf) ++ [EStart n l])) as (buf' & ev' & -> & E).
    rewrite run_app. change (run (P (MText buf') (n :: st) true ev') (lit "</")) with (P MCloseStart (n :: st) true (ev' ++ flush buf')).
    rewrite run_close by (try exact Hw; destruct Hh as (? & ? & _ & Hn & _); exact Hn).
    eexists. split; [reflexivity|]. rewrite !strip_app, E, !strip_app, !strip_flush, !app_nil_r.
    cbn [elem_events strip filter elem_event]. now rewrite <- !app_assoc.
  - intros _ buf n st ev. exists buf, ev. split; [reflexivity|]. now rewrite app_nil_r.
  - intros c es r H1 H2 _ IH Hx buf n st ev. inv Hx. sx H3.
    replace (c =? 60) with false by lia. replace (c =? 38) with false by lia. now apply IH.
  - intros m c es r Hr _ IH Hx buf n st ev. apply xapp in Hx as [_ Hx]. apply xapp in Hx as [Hx1 Hx]. apply xapp in Hx as [_ Hx2].
    rewrite !run_app. change (run (P (MText buf) (n :: st) true ev) (lit "&")) with (P (MTextRef buf []) (n :: st) true ev).
    rewrite run_text_ref by (eauto using refers_no_semi). cbn [app].
    assert (E : run (P (MTextRef buf m) (n :: st) true ev) (lit ";") = P (MText (buf ++ [c])) (n :: st) true ev).
    { change (lit ";") with [59]. rewrite run_cons. unfold tstep. change (xml_char 59) with true. cbn [negb p_mode].
      change (59 =? 59) with true. cbn iota. apply reference_iff in Hr. now rewrite Hr. }
    rewrite E. now apply IH.
  - intros t es r Ht _ IH Hx buf n st ev. apply xapp in Hx as [Hx1 Hx2]. rewrite run_app.
    destruct Ht as [Ht|[Ht|Ht]].
    + rewrite run_comment by easy. destruct (IH Hx2 [] n st (ev ++ flush buf)) as (b & e & -> & E). exists b, e. split; [reflexivity|].
      now rewrite E, strip_app, strip_flush, app_nil_r.
    + rewrite run_instruction by easy. destruct (IH Hx2 [] n st ((ev ++ flush buf) ++ [EOther []])) as (b & e & -> & E). exists b, e. split; [reflexivity|].
      rewrite E, !strip_app, strip_flush. cbn. now rewrite !app_nil_r.
    + rewrite run_cdata by easy. destruct (IH Hx2 [] n st ((ev ++ flush buf) ++ [EOther []])) as (b & e & -> & E). exists b, e. split; [reflexivity|].
      rewrite E, !strip_app, strip_flush. cbn. now rewrite !app_nil_r.
  - intros e t es r _ IHe _ IH Hx buf n st ev. apply xapp in Hx as [Hx1 Hx2]. rewrite run_app.
    destruct (IHe Hx1 buf (n :: st) true ev) as (ev1 & -> & E1); [left; discriminate|].
    destruct (IH Hx2 [] n st ev1) as (b & e2 & -> & E2). exists b, e2. split; [reflexivity|].
    rewrite E2, E1. cbn [flat_map]. now rewrite <- app_assoc.
Qed.

Lemma run_outside t : outside t -> xchars t -> forall buf r ev,
  exists buf' ev', run (P (MText buf) [] r ev) t = P (MText buf') [] r ev' /\ strip ev' = strip ev.
Proof.
  induction 1 as [|c t Hc _ IH|u t Hu _ IH]; intros Hx buf r ev.
  - now exists buf, ev.
  - inv Hx. apply blank_iff in Hc. sx H1. replace (c =? 60) with false by (unfold ws in Hc; lia). rewrite Hc. now apply IH.
  - apply xapp in Hx as [Hx1 Hx2]. rewrite run_app. destruct Hu as [Hu|Hu].
    + rewrite run_comment by easy. destruct (IH Hx2 [] r (ev ++ flush buf)) as (b & e & -> & E). exists b, e. split; [reflexivity|].
      now rewrite E, strip_app, strip_flush, app_nil_r.
    + rewrite run_instruction by easy. destruct (IH Hx2 [] r ((ev ++ flush buf) ++ [EOther []])) as (b & e & -> & E). exists b, e. split; [reflexivity|].
      rewrite E, !strip_app, strip_flush. cbn. now rewrite !app_nil_r.
Qed.

(** A document is read without error, as the events of its elements with other
    events between them. *)
Theorem document_items e t : document aw e t ->
  exists evs, titems (run tstart t) = map IEv (evs ++ [EOther []]) /\ strip evs = elem_events e.
Proof.
  intros (L & p & u & q & -> & Hp & Hu & Hq). apply legal_xchars in L. apply xapp in L as [Xp L]. apply xapp in L as [Xu Xq].
  unfold tstart. rewrite run_app. destruct (run_outside p Hp Xp [] false [EOther []]) as (b1 & e1 & -> & E1).
  rewrite run_app. destruct (proj1 run_doc e u Hu Xu b1 [] false e1) as (e2 & -> & E2); [now right|].
  destruct (run_outside q Hq Xq [] true e2) as (b3 & e3 & -> & E3).
  unfold titems. cbn [p_mode p_stack p_rooted p_evs]. exists (e3 ++ flush b3). split; [now rewrite <- app_assoc|].
  rewrite !strip_app, strip_flush, E3, E2, E1. cbn. now rewrite app_nil_r.
Qed.

(** Attributes of an element are distinct. *)
Lemma element_distinct :
  (forall e t, element aw e t -> Forall distinct_attrs (elem_events e)) /\
  (forall es t, content aw es t -> Forall distinct_attrs (flat_map elem_events es)).
Proof.
  apply doc_mind; cbn [elem_events flat_map]; auto.
  - intros n l h (a & w & _ & _ & _ & Hd & _). constructor; [exact Hd|]. constructor; [exact I|constructor].
  - intros n l h es body w (a & w' & _ & _ & _ & Hd & _) _ IH _. constructor; [exact Hd|]. apply Forall_app. split; [exact IH|].
    constructor; [exact I|constructor].
  - intros e t es r _ IHe _ IH. apply Forall_app. now split.
Qed.

End Forward.
