(** Tokenizing XML documents: what is read without error is a document. *)
From Coq Require Import String ZArith List Bool Lia.
From Coq Require Import ZifyBool ZifyNat.
From Verif Require Import Base Utf8 Obj XmlToken SpecXmlRead XmlRound.
From Verif Require DumpFacts.
From Verif Require Import SpecXmlRef XmlRef SpecXmlDoc XmlDoc.
Import ListNotations.
Open Scope Z_scope.

Section Inverse.
Variable aw : char -> char.
Notation run := (trun aw).
Notation content := (content aw). Notation element := (element aw).
Notation attributes := (attributes aw). Notation value := (value aw). Notation tag_head := (tag_head aw).

Lemma content_app es1 t1 es2 t2 : content es1 t1 -> content es2 t2 -> content (es1 ++ es2) (t1 ++ t2).
Proof.
  intros H H2. induction H as [|c es r A B _ IH|n c es r A _ IH|t es r A _ IH|e t es r A _ IH].
  - exact H2.
  - now constructor.
  - rewrite <- !app_assoc. now apply content_ref with c.
  - rewrite <- app_assoc. now constructor.
  - rewrite <- app_assoc. cbn [app]. now constructor.
Qed.

Lemma outside_app t1 t2 : outside t1 -> outside t2 -> outside (t1 ++ t2).
Proof.
  intros H H2. induction H as [|c r A _ IH|t r A _ IH]; [exact H2|now constructor|]. rewrite <- app_assoc. now constructor.
Qed.

Lemma attributes_app l1 t1 l2 t2 : attributes l1 t1 -> attributes l2 t2 -> attributes (l1 ++ l2) (t1 ++ t2).
Proof.
  intros H H2. induction H as [|w1 k w2 w3 q u v l t A1 A2 A3 A4 A5 A6 A7 _ IH]; [exact H2|].
  rewrite <- !app_assoc. cbn [app]. now apply attributes_one.
Qed.

Lemma value_app q t1 v1 t2 v2 : value q t1 v1 -> value q t2 v2 -> value q (t1 ++ t2) (v1 ++ v2).
Proof.
  intros H H2. induction H as [|c t v A B C _ IH|n c t v A _ IH]; [exact H2|now constructor|].
  rewrite <- !app_assoc. cbn [app]. now apply value_ref.
Qed.

Lemma content_char1 c : c <> 60 -> c <> 38 -> content [] [c].
Proof. intros. constructor; auto. constructor. Qed.
Lemma content_ref1 n c : refers n c -> content [] (lit "&" ++ n ++ lit ";").
Proof. intros H. rewrite <- (app_nil_r (lit ";")). apply content_ref with c; [exact H|constructor]. Qed.
Lemma content_aside1 t : comment t \/ instruction t \/ cdata t -> content [] t.
Proof. intros H. rewrite <- (app_nil_r t). constructor; [exact H|constructor]. Qed.
Lemma content_elem1 e t : element e t -> content [e] t.
Proof. intros H. rewrite <- (app_nil_r t). constructor; [exact H|constructor]. Qed.

(** ** Where the parser is in the document *)

Inductive ctx : list str -> list event -> str -> Prop :=
| ctx_top s : outside s -> ctx [] [] s
| ctx_in st evs s n l h es body : ctx st evs s -> tag_head n l h -> content es body ->
    ctx (n :: st) (evs ++ EStart n l :: flat_map elem_events es) (s ++ lit "<" ++ h ++ lit ">" ++ body).

Definition done (evs : list event) (s : str) : Prop :=
  exists e p u q, s = p ++ u ++ q /\ outside p /\ element e u /\ outside q /\ evs = elem_events e.

Definition place (st : list str) (r : bool) (evs : list event) (s : str) : Prop :=
  match st, r with
  | [], true => done evs s
  | [], false => ctx st evs s
  | _, _ => r = true /\ ctx st evs s
  end.

Lemma place_in n st r evs s : place (n :: st) r evs s = (r = true /\ ctx (n :: st) evs s).
Proof. now destruct r. Qed.

Lemma place_blank r evs s c : place [] r evs s -> blank c -> place [] r evs (s ++ [c]).
Proof.
  intros H Hc. assert (O : outside [c]) by (constructor; [exact Hc|constructor]).
  destruct r; cbn in *.
  - destruct H as (e & p & u & q & -> & A & B & C & ->). exists e, p, u, (q ++ [c]). rewrite <- !app_assoc. repeat split; auto using outside_app.
  - inversion H; subst. constructor. now apply outside_app.
Qed.

Lemma place_aside st r evs s t : place st r evs s -> comment t \/ instruction t -> place st r evs (s ++ t).
Proof.
  intros H Ht. assert (O : outside t) by (rewrite <- (app_nil_r t); constructor; [exact Ht|constructor]).
  destruct st as [|n st].
  - destruct r; cbn in *.
    + destruct H as (e & p & u & q & -> & A & B & C & ->). exists e, p, u, (q ++ t). rewrite <- !app_assoc. repeat split; auto using outside_app.
    + inversion H; subst. constructor. now apply outside_app.
  - rewrite place_in in *. destruct H as [-> H]. split; [reflexivity|]. inversion H; subst. rewrite <- !app_assoc. rewrite <- (app_nil_r es). constructor; auto.
    apply content_app; [assumption|]. apply content_aside1. tauto.
Qed.

Lemma place_content n st r evs s es t : place (n :: st) r evs s -> content es t ->
  place (n :: st) r (evs ++ flat_map elem_events es) (s ++ t).
Proof.
  intros H Ht. rewrite place_in in *. destruct H as [-> H]. split; [reflexivity|]. inversion H; subst. rewrite <- !app_assoc. cbn [app]. rewrite <- flat_map_app.
  constructor; auto using content_app.
Qed.

Lemma place_inert n st r evs s t : place (n :: st) r evs s -> content [] t -> place (n :: st) r evs (s ++ t).
Proof. intros H Ht. rewrite <- (app_nil_r evs). now apply (place_content n st r evs s []). Qed.

Lemma place_elem st r evs s e t : place st r evs s -> st <> [] \/ r = false -> element e t ->
  place st true (evs ++ elem_events e) (s ++ t).
Proof.
  intros H Hr He. destruct st as [|n st].
  - destruct Hr as [Hr | ->]; [easy|]. cbn in H. inversion H; subst. exists e, s, t, []. rewrite app_nil_r.
    repeat split; auto. constructor.
  - assert (r = true) as -> by now rewrite place_in in H. rewrite <- (app_nil_r (elem_events e)). change (elem_events e ++ []) with (flat_map elem_events [e]).
    apply place_content; [exact H|]. now apply content_elem1.
Qed.

Lemma place_open st r evs s n l h : place st r evs s -> st <> [] \/ r = false -> tag_head n l h ->
  place (n :: st) true (evs ++ [EStart n l]) (s ++ lit "<" ++ h ++ lit ">").
Proof.
  intros H Hr Hh. rewrite place_in. split; [reflexivity|]. rewrite <- (app_nil_r (lit ">")).
  change [EStart n l] with (EStart n l :: flat_map elem_events []). constructor; [|exact Hh|constructor].
  destruct st as [|m st]; [destruct Hr as [Hr | ->]; easy|]. rewrite place_in in H. apply H.
Qed.

Lemma place_close n st r evs s w : place (n :: st) r evs s -> blanks w ->
  place st true (evs ++ [EEnd n]) (s ++ lit "</" ++ n ++ w ++ lit ">").
Proof.
  intros H Hw. rewrite place_in in H. destruct H as [-> H]. inversion H as [|st' evs' s' n' l h es body Hc Hh Hb]; subst.
  replace ((s' ++ lit "<" ++ h ++ lit ">" ++ body) ++ lit "</" ++ n ++ w ++ lit ">")
    with (s' ++ (lit "<" ++ h ++ lit ">" ++ body ++ lit "</" ++ n ++ w ++ lit ">")) by now rewrite <- !app_assoc.
  replace ((evs' ++ EStart n l :: flat_map elem_events es) ++ [EEnd n]) with (evs' ++ elem_events (El n l es))
    by (cbn [elem_events]; now rewrite <- app_assoc).
  apply (place_elem st (match st with [] => false | _ => true end)).
  - destruct st; [exact Hc|]. split; [reflexivity|exact Hc].
  - destruct st; [now right|left; discriminate].
  - now constructor.
Qed.

(** ** What has been read of a markup *)

Definition head_of (n : str) (l : list (str * str)) (a w : str) : Prop :=
  xml_name n /\ attributes l a /\ NoDup (map fst l) /\ blanks w.

Definition pend (st : list str) (rt : bool) (m : mode) (r : str) : Prop :=
  match m with
  | MText _ => r = []
  | MTextRef _ ref => st <> [] /\ r = lit "&" ++ ref
  | MLt => r = lit "<"
  | MBang b => r = lit "<!" ++ b
  | MComment k => exists a, r = lit "<!--" ++ a ++ repeat 45 k /\ (k <= 2)%nat
      /\ (forall x, a <> x ++ [45]) /\ (forall x y, a <> x ++ [45; 45] ++ y)
  | MCdata k => st <> [] /\ exists a, r = lit "<![CDATA[" ++ a ++ repeat 93 k
      /\ (forall x, a <> x ++ [93]) /\ (forall x y, a <> x ++ [93; 93; 62] ++ y)
  | MPI q => exists a, r = lit "<?" ++ a ++ (if q then [63] else [])
      /\ (forall x, q = false -> a <> x ++ [63]) /\ (forall x y, a <> x ++ [63; 62] ++ y)
  | MOpenName n => (st <> [] \/ rt = false) /\ r = lit "<" ++ n /\ xml_name n
  | MInTag n l sp => (st <> [] \/ rt = false) /\
      exists a w, r = lit "<" ++ n ++ a ++ w /\ head_of n l a w /\ (sp = true -> w <> [])
  | MAttrName n l k => (st <> [] \/ rt = false) /\
      exists a w, r = lit "<" ++ n ++ a ++ w ++ k /\ head_of n l a w /\ w <> [] /\ xml_name k
  | MAttrEq n l k => (st <> [] \/ rt = false) /\
      exists a w w2, r = lit "<" ++ n ++ a ++ w ++ k ++ w2 /\ head_of n l a w /\ w <> [] /\ xml_name k /\ blanks w2
  | MBeforeVal n l k => (st <> [] \/ rt = false) /\
      exists a w w2 w3, r = lit "<" ++ n ++ a ++ w ++ k ++ w2 ++ lit "=" ++ w3 /\ head_of n l a w /\ w <> [] /\ xml_name k
        /\ blanks w2 /\ blanks w3
  | MVal n l k q v => (st <> [] \/ rt = false) /\
      exists a w w2 w3 u, r = lit "<" ++ n ++ a ++ w ++ k ++ w2 ++ lit "=" ++ w3 ++ [q] ++ u /\ head_of n l a w /\ w <> [] /\ xml_name k
        /\ blanks w2 /\ blanks w3 /\ (q = 34 \/ q = 39) /\ value q u v
  | MValRef n l k q v ref => (st <> [] \/ rt = false) /\
      exists a w w2 w3 u, r = lit "<" ++ n ++ a ++ w ++ k ++ w2 ++ lit "=" ++ w3 ++ [q] ++ u ++ lit "&" ++ ref
        /\ head_of n l a w /\ w <> [] /\ xml_name k
        /\ blanks w2 /\ blanks w3 /\ (q = 34 \/ q = 39) /\ value q u v
  | MSlash n l => (st <> [] \/ rt = false) /\ exists h, r = lit "<" ++ h ++ lit "/" /\ tag_head n l h
  | MCloseStart => r = lit "</"
  | MCloseName n => r = lit "</" ++ n /\ xml_name n
  | MCloseWs n => exists w, r = lit "</" ++ n ++ w /\ blanks w
  | MErr => False
  end.

Definition reached (p : pst) (s : str) : Prop :=
  p_mode p = MErr \/
  xchars s /\ exists s0 r, s = s0 ++ r /\ place (p_stack p) (p_rooted p) (strip (p_evs p)) s0
    /\ pend (p_stack p) (p_rooted p) (p_mode p) r.

Lemma name_snoc n c : xml_name n -> name_char c = true -> xml_char c = true -> xml_name (n ++ [c]).
Proof.
  intros Hn Hc Hx. destruct n as [|x n]; [easy|]. destruct Hn as (A & B & C). split; [exact A|]. split.
  - apply Forall_app. split; [exact B|]. constructor; [now apply name_later_iff|constructor].
  - change (x :: (n ++ [c])) with ((x :: n) ++ [c]). apply Forall_app. split; [exact C|]. now constructor.
Qed.
Lemma name_one c : name_start c = true -> xml_char c = true -> xml_name [c].
Proof. intros Hc Hx. split; [now apply name_first_iff|]. split; [constructor|now constructor]. Qed.
Lemma blanks_snoc w c : blanks w -> ws c = true -> blanks (w ++ [c]).
Proof. intros H Hc. apply Forall_app. split; [exact H|]. constructor; [now apply blank_iff|constructor]. Qed.
Lemma snoc_ne {A} (w : list A) c : w ++ [c] <> [].
Proof. now destruct w. Qed.
Lemma head_tag n l a w : head_of n l a w -> tag_head n l (n ++ a ++ w).
Proof. intros (A & B & C & D). now exists a, w. Qed.
Lemma name_tag n : xml_name n -> tag_head n [] n.
Proof. intros H. exists [], []. cbn [app]. rewrite app_nil_r. repeat split; try constructor; assumption. Qed.

Lemma NoDup_app_one {A} (l : list A) x : NoDup l -> ~ In x l -> NoDup (l ++ [x]).
Proof.
  intros H N. apply NoDup_rev in H. rewrite <- (rev_involutive (l ++ [x])), rev_app_distr. apply NoDup_rev. cbn.
  constructor; [|exact H]. now rewrite <- in_rev.
Qed.

(** Endings. *)
Lemma snoc_app {A} (a x : list A) c y z : a ++ [c] = x ++ y ++ [z] -> a = x ++ y /\ c = z.
Proof. rewrite app_assoc. apply app_inj_tail. Qed.

Lemma no_factor (a u x y : list Z) c z : (forall x y, a <> x ++ u ++ y) -> a ++ [c] = x ++ (u ++ y) ++ [z] -> False.
Proof. intros H E. apply snoc_app in E as [E _]. exact (H x y E). Qed.

Lemma goto_reached m p c s s0 r : xchars (s ++ [c]) ->
  s ++ [c] = s0 ++ r -> place (p_stack p) (p_rooted p) (strip (p_evs p)) s0 -> pend (p_stack p) (p_rooted p) m r ->
  reached (goto m p) (s ++ [c]).
Proof. intros X E H1 H2. right. split; [exact X|]. exists s0, r. cbn [goto p_stack p_rooted p_evs p_mode]. auto. Qed.

Lemma to_text p buf c s s1 : xchars (s ++ [c]) -> s ++ [c] = s1 -> place (p_stack p) (p_rooted p) (strip (p_evs p)) s1 ->
  reached (goto (MText buf) p) (s ++ [c]).
Proof. intros X E H. apply (goto_reached _ _ _ _ s1 []); auto; [now rewrite app_nil_r|reflexivity]. Qed.

Lemma err_reached p s : reached (goto MErr p) s.
Proof. now left. Qed.

(** Comments: the text before the dashes. *)
Lemma comment_char a k x : (k <= 1)%nat -> x <> 45 -> (forall y, a <> y ++ [45]) -> (forall y z, a <> y ++ [45; 45] ++ z) ->
  (forall y, (a ++ repeat 45 k) ++ [x] <> y ++ [45]) /\ (forall y z, (a ++ repeat 45 k) ++ [x] <> y ++ [45; 45] ++ z).
Proof.
  intros Hk Hx H1 H2. split.
  - intros y E. apply app_inj_tail in E as [_ ->]. easy.
  - intros y z E. destruct z as [|z0 z] using rev_ind; [|clear IHz].
    + rewrite app_nil_r in E. change [45; 45] with ([45] ++ [45]) in E. apply snoc_app in E as [_ E]. easy.
    + rewrite (app_assoc [45; 45] z [z0]) in E. apply snoc_app in E as [E _]. destruct k as [|[|k]]; [| |lia].
      * rewrite app_nil_r in E. exact (H2 _ _ E).
      * cbn [repeat] in E. destruct z as [|z1 z] using rev_ind; [|clear IHz].
        -- rewrite app_nil_r in E. change [45; 45] with ([45] ++ [45]) in E. apply snoc_app in E as [E _]. exact (H1 _ E).
        -- rewrite (app_assoc [45; 45] z [z1]) in E. apply snoc_app in E as [E _]. exact (H2 _ _ E).
Qed.

Lemma comment_done a : (forall y, a <> y ++ [45]) -> (forall y z, a <> y ++ [45; 45] ++ z) ->
  comment (lit "<!--" ++ a ++ lit "-->").
Proof.
  intros H1 H2. constructor. intros x y E. change (lit "-") with [45] in E. change (lit "--") with [45; 45] in E.
  destruct y as [|y0 y] using rev_ind; [|clear IHy].
  - rewrite app_nil_r in E. change [45; 45] with ([45] ++ [45]) in E. apply snoc_app in E as [E _]. exact (H1 _ E).
  - rewrite (app_assoc [45; 45] y [y0]) in E. apply snoc_app in E as [E _]. exact (H2 _ _ E).
Qed.

(** CDATA: the text before the brackets. *)
Lemma repeat_end (x : char) k : repeat x (S k) = repeat x k ++ [x].
Proof. induction k as [|k IH]; [reflexivity|]. cbn [repeat app] in *. now rewrite <- IH. Qed.

Lemma cdata_in a k : (forall y, a <> y ++ [93]) -> (forall y z, a <> y ++ [93; 93; 62] ++ z) ->
  forall y z, a ++ repeat 93 k <> y ++ [93; 93; 62] ++ z.
Proof.
  intros H1 H2. induction k as [|k IH]; intros y z E.
  - rewrite app_nil_r in E. exact (H2 _ _ E).
  - rewrite repeat_end, app_assoc in E. destruct z as [|z0 z] using rev_ind; [|clear IHz].
    + rewrite app_nil_r in E. change [93; 93; 62] with ([93; 93] ++ [62]) in E. apply snoc_app in E as [_ E]. discriminate.
    + rewrite (app_assoc [93; 93; 62] z [z0]) in E. apply snoc_app in E as [E _]. exact (IH _ _ E).
Qed.

Lemma cdata_char a k x : x <> 93 -> (x = 62 -> (k <= 1)%nat) -> (forall y, a <> y ++ [93]) -> (forall y z, a <> y ++ [93; 93; 62] ++ z) ->
  (forall y, (a ++ repeat 93 k) ++ [x] <> y ++ [93]) /\ (forall y z, (a ++ repeat 93 k) ++ [x] <> y ++ [93; 93; 62] ++ z).
Proof.
  intros Hx Hk H1 H2. split.
  - intros y E. apply app_inj_tail in E as [_ ->]. easy.
  - intros y z E. destruct z as [|z0 z] using rev_ind; [|clear IHz].
    + rewrite app_nil_r in E. change [93; 93; 62] with ([93; 93] ++ [62]) in E. apply snoc_app in E as [E ->].
      specialize (Hk eq_refl). destruct k as [|[|k]]; [| |lia].
      * rewrite app_nil_r in E. change [93; 93] with ([93] ++ [93]) in E. rewrite app_assoc in E. exact (H1 _ E).
      * cbn [repeat] in E. change [93; 93] with ([93] ++ [93]) in E. apply snoc_app in E as [E _]. exact (H1 _ E).
    + rewrite (app_assoc [93; 93; 62] z [z0]) in E. apply snoc_app in E as [E _]. exact (cdata_in a k H1 H2 _ _ E).
Qed.

Lemma ended_intro u c z : (forall x y, c ++ removelast u <> x ++ u ++ y) -> u = removelast u ++ [z] -> ended_by u c.
Proof.
  intros H Hu a b E. destruct b as [|b0 b] using rev_ind; [reflexivity|]. clear IHb. exfalso.
  rewrite Hu in E at 1. rewrite app_assoc in E. rewrite (app_assoc u b [b0]) in E. apply snoc_app in E as [E _]. exact (H _ _ E).
Qed.

Lemma pi_in a (q : bool) : (forall y z, a <> y ++ [63; 62] ++ z) ->
  forall y z, a ++ (if q then [63] else []) <> y ++ [63; 62] ++ z.
Proof.
  intros H2 y z E. destruct q.
  - destruct z as [|z0 z] using rev_ind; [|clear IHz].
    + rewrite app_nil_r in E. change [63; 62] with ([63] ++ [62]) in E. apply snoc_app in E as [_ E]. discriminate.
    + rewrite (app_assoc [63; 62] z [z0]) in E. apply snoc_app in E as [E _]. exact (H2 _ _ E).
  - rewrite app_nil_r in E. exact (H2 _ _ E).
Qed.

Lemma pi_char a (q : bool) x : x <> 63 -> (x = 62 -> q = false) -> (forall y, q = false -> a <> y ++ [63]) -> (forall y z, a <> y ++ [63; 62] ++ z) ->
  (forall y, (a ++ (if q then [63] else [])) ++ [x] <> y ++ [63])
  /\ (forall y z, (a ++ (if q then [63] else [])) ++ [x] <> y ++ [63; 62] ++ z).
Proof.
  intros Hx Hk H1 H2. split.
  - intros y E. apply app_inj_tail in E as [_ ->]. easy.
  - intros y z E. destruct z as [|z0 z] using rev_ind; [|clear IHz].
    + rewrite app_nil_r in E. change [63; 62] with ([63] ++ [62]) in E. apply snoc_app in E as [E ->].
      rewrite (Hk eq_refl) in *. rewrite app_nil_r in E. exact (H1 _ eq_refl E).
    + rewrite (app_assoc [63; 62] z [z0]) in E. apply snoc_app in E as [E _]. exact (pi_in a q H2 _ _ E).
Qed.

Ltac asc := rewrite <- ?app_assoc; cbn [app]; rewrite <- ?app_assoc; try reflexivity.

Lemma step_reached p s c : reached p s -> reached (tstep aw p c) (s ++ [c]).
Proof.
  intros [E|(X & s0 & r & -> & Hp & Hr)].
  { left. unfold tstep. rewrite E. destruct (negb (xml_char c)); [reflexivity|exact E]. }
  unfold tstep. destruct (xml_char c) eqn:Hx; cbn [negb]; [|apply err_reached].
  assert (X' : xchars ((s0 ++ r) ++ [c])) by (apply xapp; split; [exact X|now constructor]).
  destruct p as [m st rt ev]. cbn [p_mode p_stack p_rooted p_evs] in *.
  destruct m as [buf|buf ref| |b|k|k|q|n|n l sp|n l k|n l k|n l k|n l k q v|n l k q v ref|n l| |n|n|]; cbn [pend] in Hr.
  - (* text *) subst r. rewrite app_nil_r in *.
    destruct (c =? 60) eqn:E1.
    + apply Z.eqb_eq in E1 as ->. right. split; [exact X'|]. exists s0, (lit "<"). cbn [p_stack p_rooted p_evs p_mode].
      rewrite strip_app, strip_flush, app_nil_r. repeat split; assumption.
    + destruct st as [|n st].
      * destruct (ws c) eqn:E2; [|apply err_reached]. eapply to_text; [exact X'|reflexivity|]. cbn [p_stack p_rooted p_evs].
        apply place_blank; [exact Hp|now apply blank_iff].
      * destruct (c =? 38) eqn:E2.
        -- apply Z.eqb_eq in E2 as ->. apply (goto_reached _ _ _ _ s0 [38]); auto. cbn [pend p_stack]. split; [discriminate|reflexivity].
        -- eapply to_text; [exact X'|reflexivity|]. cbn [p_stack p_rooted p_evs]. apply place_inert; [exact Hp|]. apply content_char1; lia.
  - (* reference in text *) destruct Hr as (Hs & ->). destruct (c =? 59) eqn:E1.
    + apply Z.eqb_eq in E1 as ->. destruct (reference ref) as [x|] eqn:E; [|apply err_reached]. apply reference_iff in E.
      eapply to_text; [exact X'|reflexivity|]. cbn [p_stack p_rooted p_evs]. rewrite <- app_assoc.
      destruct st as [|n st]; [easy|]. apply place_inert; [exact Hp|]. rewrite <- app_assoc. exact (content_ref1 _ _ E).
    + apply (goto_reached _ _ _ _ s0 (lit "&" ++ ref ++ [c])); auto; [asc|]. split; [exact Hs|reflexivity].
  - (* < *) subst r.
    destruct (c =? 47) eqn:E1; [apply Z.eqb_eq in E1 as ->; apply (goto_reached _ _ _ _ s0 (lit "</")); auto; [asc|reflexivity]|].
    destruct (c =? 33) eqn:E2; [apply Z.eqb_eq in E2 as ->; apply (goto_reached _ _ _ _ s0 (lit "<!")); auto; [asc|reflexivity]|].
    destruct (c =? 63) eqn:E3.
    { apply Z.eqb_eq in E3 as ->; apply (goto_reached _ _ _ _ s0 (lit "<?")); auto; [asc|]. exists []. split; [reflexivity|].
      split; [intros x _; now destruct x|intros x y; now destruct x]. }
    destruct (name_start c) eqn:E4; [|apply err_reached].
    assert (G : st <> [] \/ rt = false -> reached (goto (MOpenName [c]) (P MLt st rt ev)) ((s0 ++ lit "<") ++ [c])).
    { intros Ho. apply (goto_reached _ _ _ _ s0 (lit "<" ++ [c])); auto; [asc|]. cbn [pend p_stack p_rooted].
      split; [exact Ho|]. split; [reflexivity|]. now apply name_one. }
    destruct st as [|n st]; [destruct rt; [apply err_reached|]|]; apply G; [now right|left; discriminate].
  - (* <! *) subst r. destruct (str_eqb (b ++ [c]) (lit "--")) eqn:E1.
    { apply str_eqb_eq in E1. apply (goto_reached _ _ _ _ s0 (lit "<!--")); auto.
      - rewrite <- app_assoc. f_equal. rewrite <- app_assoc, E1. reflexivity.
      - exists []. split; [reflexivity|]. split; [lia|]. split; [intros x; now destruct x|intros x y; now destruct x]. }
    destruct (str_eqb (b ++ [c]) (lit "[CDATA[")) eqn:E2.
    { apply str_eqb_eq in E2. destruct st as [|n st]; [apply err_reached|]. apply (goto_reached _ _ _ _ s0 (lit "<![CDATA[")); auto.
      - rewrite <- app_assoc. f_equal. rewrite <- app_assoc, E2. reflexivity.
      - split; [discriminate|]. exists []. split; [reflexivity|]. split; [intros x; now destruct x|intros x y; now destruct x]. }
    destruct (is_prefix (b ++ [c]) (lit "--") || is_prefix (b ++ [c]) (lit "[CDATA[")); [|apply err_reached].
    apply (goto_reached _ _ _ _ s0 (lit "<!" ++ b ++ [c])); auto; [asc|reflexivity].
  - (* comment *) destruct Hr as (a & -> & Hk & H1 & H2). destruct (Nat.leb 2 k) eqn:E1.
    + assert (k = 2%nat) as -> by lia. destruct (c =? 62) eqn:E2; [|apply err_reached]. apply Z.eqb_eq in E2 as ->.
      eapply to_text; [exact X'|reflexivity|]. cbn [p_stack p_rooted p_evs]. rewrite <- app_assoc. apply place_aside; [exact Hp|].
      left. rewrite <- !app_assoc. now apply comment_done.
    + destruct (c =? 45) eqn:E2.
      * apply Z.eqb_eq in E2 as ->. apply (goto_reached _ _ _ _ s0 (lit "<!--" ++ a ++ repeat 45 (S k))); auto.
        -- rewrite repeat_end. asc.
        -- exists a. split; [reflexivity|]. split; [lia|]. now split.
      * destruct (comment_char a k c) as [A B]; [lia|lia|exact H1|exact H2|].
        apply (goto_reached _ _ _ _ s0 (lit "<!--" ++ ((a ++ repeat 45 k) ++ [c]) ++ repeat 45 0)); auto.
        -- cbn [repeat]. rewrite app_nil_r. asc.
        -- exists ((a ++ repeat 45 k) ++ [c]). split; [reflexivity|]. split; [lia|]. now split.
  - (* CDATA *) destruct Hr as (Hs & a & -> & H1 & H2). destruct (c =? 93) eqn:E1.
    + apply Z.eqb_eq in E1 as ->. apply (goto_reached _ _ _ _ s0 (lit "<![CDATA[" ++ a ++ repeat 93 (S k))); auto.
      * rewrite repeat_end. asc.
      * split; [exact Hs|]. exists a. now split.
    + destruct ((c =? 62) && Nat.leb 2 k) eqn:E2.
      * right. split; [exact X'|]. eexists _, []. rewrite app_nil_r. split; [reflexivity|]. cbn [p_stack p_rooted p_evs p_mode pend].
        split; [|reflexivity]. rewrite strip_app. cbn [strip filter elem_event]. rewrite app_nil_r, <- app_assoc.
        destruct st as [|n st]; [easy|]. apply place_inert; [exact Hp|]. apply content_aside1. right. right.
        destruct k as [|[|k]]; [lia|lia|]. assert (c = 62) as -> by lia.
        replace ((lit "<![CDATA[" ++ a ++ repeat 93 (S (S k))) ++ [62]) with (lit "<![CDATA[" ++ (a ++ repeat 93 k) ++ lit "]]>").
        2:{ rewrite !repeat_end. change (lit "]]>") with ([93] ++ [93] ++ [62]). now rewrite <- !app_assoc. }
        constructor. apply ended_intro with 62; [|reflexivity]. intros x y E. change (removelast (lit "]]>")) with ([93] ++ [93]) in E.
        rewrite app_assoc, <- (app_assoc a), <- repeat_end, <- (app_assoc a), <- repeat_end in E.
        exact (cdata_in a _ H1 H2 _ _ E).
      * destruct (cdata_char a k c) as [A B]; [lia|lia|exact H1|exact H2|].
        apply (goto_reached _ _ _ _ s0 (lit "<![CDATA[" ++ ((a ++ repeat 93 k) ++ [c]) ++ repeat 93 0)); auto.
        -- cbn [repeat]. rewrite app_nil_r. asc.
        -- split; [exact Hs|]. exists ((a ++ repeat 93 k) ++ [c]). now split.
  - (* processing instruction *) destruct Hr as (a & -> & H1 & H2). destruct (c =? 63) eqn:E1.
    + apply Z.eqb_eq in E1 as ->. apply (goto_reached _ _ _ _ s0 (lit "<?" ++ (a ++ (if q then [63] else [])) ++ [63])); auto; [asc|].
      exists (a ++ (if q then [63] else [])). split; [reflexivity|]. split; [discriminate|]. now apply pi_in.
    + destruct ((c =? 62) && q) eqn:E2.
      * right. split; [exact X'|]. eexists _, []. rewrite app_nil_r. split; [reflexivity|]. cbn [p_stack p_rooted p_evs p_mode pend].
        split; [|reflexivity]. rewrite strip_app. cbn [strip filter elem_event]. rewrite app_nil_r, <- app_assoc.
        apply place_aside; [exact Hp|]. right. destruct q; [|now rewrite andb_false_r in E2]. assert (c = 62) as -> by lia.
        rewrite <- !app_assoc. constructor. apply ended_intro with 62; [|reflexivity]. exact (pi_in a true H2).
      * destruct (pi_char a q c) as [A B]; [lia|intros ->; destruct q; [discriminate|reflexivity]|exact H1|exact H2|].
        apply (goto_reached _ _ _ _ s0 (lit "<?" ++ ((a ++ (if q then [63] else [])) ++ [c]) ++ [])); auto.
        -- rewrite app_nil_r. asc.
        -- exists ((a ++ (if q then [63] else [])) ++ [c]). split; [reflexivity|]. split; [intros x _; apply A|exact B].
  - (* element name *) destruct Hr as (Ho & -> & Hn). destruct (name_char c) eqn:E1.
    { apply (goto_reached _ _ _ _ s0 (lit "<" ++ n ++ [c])); auto; [asc|]. split; [exact Ho|]. split; [reflexivity|]. now apply name_snoc. }
    destruct (ws c) eqn:E2.
    { apply (goto_reached _ _ _ _ s0 (lit "<" ++ n ++ [] ++ [c])); auto; [asc|]. split; [exact Ho|]. exists [], [c]. split; [reflexivity|].
      split; [|discriminate]. split; [exact Hn|]. split; [constructor|]. split; [constructor|]. apply (blanks_snoc []); [constructor|exact E2]. }
    destruct (c =? 62) eqn:E3.
    { apply Z.eqb_eq in E3 as ->. right. split; [exact X'|]. eexists _, []. rewrite app_nil_r. split; [reflexivity|].
      cbn [open_element p_stack p_rooted p_evs p_mode pend]. split; [|reflexivity]. rewrite strip_app, <- !app_assoc.
      apply (place_open st rt); auto. now apply name_tag. }
    destruct (c =? 47) eqn:E4; [|apply err_reached]. apply Z.eqb_eq in E4 as ->.
    apply (goto_reached _ _ _ _ s0 (lit "<" ++ n ++ lit "/")); auto; [asc|]. split; [exact Ho|]. exists n. split; [reflexivity|]. now apply name_tag.
  - (* in a tag *) destruct Hr as (Ho & a & w & -> & (A & B & C & D) & Hsp). destruct (ws c) eqn:E2.
    { apply (goto_reached _ _ _ _ s0 (lit "<" ++ n ++ a ++ w ++ [c])); auto; [asc|]. split; [exact Ho|]. exists a, (w ++ [c]). split; [reflexivity|].
      split; [|intros _; apply snoc_ne]. repeat (split; [assumption|]). now apply blanks_snoc. }
    destruct (c =? 62) eqn:E3.
    { apply Z.eqb_eq in E3 as ->. right. split; [exact X'|]. eexists _, []. rewrite app_nil_r. split; [reflexivity|].
      cbn [open_element p_stack p_rooted p_evs p_mode pend]. split; [|reflexivity]. rewrite strip_app.
      replace ((s0 ++ lit "<" ++ n ++ a ++ w) ++ [62]) with (s0 ++ lit "<" ++ (n ++ a ++ w) ++ lit ">") by asc.
      apply (place_open st rt); auto. now apply head_tag. }
    destruct (c =? 47) eqn:E4.
    { apply Z.eqb_eq in E4 as ->. apply (goto_reached _ _ _ _ s0 (lit "<" ++ (n ++ a ++ w) ++ lit "/")); auto; [asc|].
      split; [exact Ho|]. exists (n ++ a ++ w). split; [reflexivity|]. now apply head_tag. }
    destruct (name_start c && sp) eqn:E5; [|apply err_reached]. apply andb_true_iff in E5 as [E5 ->].
    apply (goto_reached _ _ _ _ s0 (lit "<" ++ n ++ a ++ w ++ [c])); auto; [asc|]. split; [exact Ho|]. exists a, w. split; [reflexivity|].
    split; [now repeat split|]. split; [auto|]. now apply name_one.
  - (* attribute name *) destruct Hr as (Ho & a & w & -> & Hh & Hw & Hk). destruct (name_char c) eqn:E1.
    { apply (goto_reached _ _ _ _ s0 (lit "<" ++ n ++ a ++ w ++ k ++ [c])); auto; [asc|]. split; [exact Ho|]. exists a, w.
      split; [reflexivity|]. split; [exact Hh|]. split; [exact Hw|]. now apply name_snoc. }
    destruct (c =? 61) eqn:E2.
    { apply Z.eqb_eq in E2 as ->. apply (goto_reached _ _ _ _ s0 (lit "<" ++ n ++ a ++ w ++ k ++ [] ++ lit "=" ++ [])); auto; [asc|].
      split; [exact Ho|]. exists a, w, [], []. split; [reflexivity|]. repeat (split; [assumption|]). split; constructor. }
    destruct (ws c) eqn:E3; [|apply err_reached].
    apply (goto_reached _ _ _ _ s0 (lit "<" ++ n ++ a ++ w ++ k ++ [c])); auto; [asc|]. split; [exact Ho|]. exists a, w, [c].
    split; [reflexivity|]. repeat (split; [assumption|]). apply (blanks_snoc []); [constructor|assumption].
  - (* before = *) destruct Hr as (Ho & a & w & w2 & -> & Hh & Hw & Hk & Hw2). destruct (ws c) eqn:E1.
    { right. split; [exact X'|]. exists s0, (lit "<" ++ n ++ a ++ w ++ k ++ w2 ++ [c]). split; [asc|]. split; [exact Hp|].
      split; [exact Ho|]. exists a, w, (w2 ++ [c]). split; [reflexivity|]. repeat (split; [assumption|]). now apply blanks_snoc. }
    destruct (c =? 61) eqn:E2; [|apply err_reached].
    apply Z.eqb_eq in E2 as ->. apply (goto_reached _ _ _ _ s0 (lit "<" ++ n ++ a ++ w ++ k ++ w2 ++ lit "=" ++ [])); auto; [asc|].
    split; [exact Ho|]. exists a, w, w2, []. split; [reflexivity|]. repeat (split; [assumption|]). constructor.
  - (* before a value *) destruct Hr as (Ho & a & w & w2 & w3 & -> & Hh & Hw & Hk & Hw2 & Hw3). destruct (ws c) eqn:E1.
    { right. split; [exact X'|]. exists s0, (lit "<" ++ n ++ a ++ w ++ k ++ w2 ++ lit "=" ++ w3 ++ [c]). split; [asc|]. split; [exact Hp|].
      split; [exact Ho|]. exists a, w, w2, (w3 ++ [c]). split; [reflexivity|]. repeat (split; [assumption|]). now apply blanks_snoc. }
    destruct ((c =? 34) || (c =? 39)) eqn:E2; [|apply err_reached].
    apply (goto_reached _ _ _ _ s0 (lit "<" ++ n ++ a ++ w ++ k ++ w2 ++ lit "=" ++ w3 ++ [c] ++ [])); auto; [asc|].
    split; [exact Ho|]. exists a, w, w2, w3, []. split; [reflexivity|]. repeat (split; [assumption|]). split; [lia|constructor].
  - (* value *) destruct Hr as (Ho & a & w & w2 & w3 & u & -> & Hh & Hw & Hk & Hw2 & Hw3 & Hq & Hv). destruct (c =? q) eqn:E1.
    { apply Z.eqb_eq in E1 as ->. destruct (has_attr k l) eqn:E2; [apply err_reached|].
      destruct Hh as (A & B & C & D).
      apply (goto_reached _ _ _ _ s0 (lit "<" ++ n ++ (a ++ (w ++ k ++ w2 ++ lit "=" ++ w3 ++ [q] ++ u ++ [q] ++ [])) ++ [])); auto.
      - rewrite !app_nil_r. asc.
      - split; [exact Ho|]. eexists _, []. split; [reflexivity|]. split; [|discriminate]. split; [exact A|]. split.
        + apply attributes_app; [exact B|]. apply attributes_one; auto. constructor.
        + split; [|constructor]. rewrite map_app. cbn [map fst]. apply NoDup_app_one; [exact C|].
          intros I. apply has_attr_in in I. congruence. }
    destruct (c =? 38) eqn:E2.
    { apply Z.eqb_eq in E2 as ->. apply (goto_reached _ _ _ _ s0 (lit "<" ++ n ++ a ++ w ++ k ++ w2 ++ lit "=" ++ w3 ++ [q] ++ u ++ lit "&" ++ [])); auto; [asc|].
      split; [exact Ho|]. exists a, w, w2, w3, u. split; [reflexivity|]. repeat (split; [assumption|]). assumption. }
    destruct (c =? 60) eqn:E3; [apply err_reached|].
    apply (goto_reached _ _ _ _ s0 (lit "<" ++ n ++ a ++ w ++ k ++ w2 ++ lit "=" ++ w3 ++ [q] ++ u ++ [c])); auto; [asc|].
    split; [exact Ho|]. exists a, w, w2, w3, (u ++ [c]). split; [reflexivity|]. repeat (split; [assumption|]).
    apply value_app; [exact Hv|]. constructor; [lia|lia|lia|constructor].
  - (* reference in a value *) destruct Hr as (Ho & a & w & w2 & w3 & u & -> & Hh & Hw & Hk & Hw2 & Hw3 & Hq & Hv). destruct (c =? 59) eqn:E1.
    { apply Z.eqb_eq in E1 as ->. destruct (reference ref) as [x|] eqn:E; [|apply err_reached]. apply reference_iff in E.
      apply (goto_reached _ _ _ _ s0 (lit "<" ++ n ++ a ++ w ++ k ++ w2 ++ lit "=" ++ w3 ++ [q] ++ (u ++ lit "&" ++ ref ++ lit ";" ++ []))); auto.
      - rewrite app_nil_r. asc.
      - split; [exact Ho|]. exists a, w, w2, w3, (u ++ lit "&" ++ ref ++ lit ";" ++ []). split; [reflexivity|]. repeat (split; [assumption|]).
        apply value_app; [exact Hv|]. apply value_ref; [exact E|constructor]. }
    apply (goto_reached _ _ _ _ s0 (lit "<" ++ n ++ a ++ w ++ k ++ w2 ++ lit "=" ++ w3 ++ [q] ++ u ++ lit "&" ++ ref ++ [c])); auto; [asc|].
    split; [exact Ho|]. exists a, w, w2, w3, u. split; [reflexivity|]. repeat (split; [assumption|]). assumption.
  - (* / *) destruct Hr as (Ho & h & -> & Hh). destruct (c =? 62) eqn:E1; [|apply err_reached]. apply Z.eqb_eq in E1 as ->.
    right. split; [exact X'|]. eexists _, []. rewrite app_nil_r. split; [reflexivity|].
    cbn [empty_element p_stack p_rooted p_evs p_mode pend]. split; [|reflexivity]. rewrite strip_app.
    replace ((s0 ++ lit "<" ++ h ++ lit "/") ++ [62]) with (s0 ++ (lit "<" ++ h ++ lit "/>")) by asc.
    change (strip [EStart n l; EEnd n]) with (elem_events (El n l [])). apply (place_elem st rt); auto. now constructor.
  - (* </ *) subst r. destruct (name_start c) eqn:E1; [|apply err_reached].
    apply (goto_reached _ _ _ _ s0 (lit "</" ++ [c])); auto; [asc|]. split; [reflexivity|]. now apply name_one.
  - (* name of an end tag *) destruct Hr as (-> & Hn). destruct (name_char c) eqn:E1.
    { apply (goto_reached _ _ _ _ s0 (lit "</" ++ n ++ [c])); auto; [asc|]. split; [reflexivity|]. now apply name_snoc. }
    destruct (ws c) eqn:E2.
    { apply (goto_reached _ _ _ _ s0 (lit "</" ++ n ++ [c])); auto; [asc|]. exists [c]. split; [reflexivity|]. apply (blanks_snoc []); [constructor|assumption]. }
    destruct (c =? 62) eqn:E3; [|apply err_reached]. apply Z.eqb_eq in E3 as ->.
    unfold close_element. cbn [p_stack p_rooted p_evs]. destruct st as [|m st]; [apply err_reached|].
    destruct (str_eqb m n) eqn:E4; [|apply err_reached]. apply str_eqb_eq in E4 as ->.
    right. split; [exact X'|]. eexists _, []. rewrite app_nil_r. split; [reflexivity|]. cbn [p_stack p_rooted p_evs p_mode pend].
    split; [|reflexivity]. rewrite strip_app. rewrite <- !app_assoc.
    assert (rt = true) as -> by now rewrite place_in in Hp.
    exact (place_close n st true _ _ [] Hp ltac:(constructor)).
  - (* white space in an end tag *) destruct Hr as (w & -> & Hw). destruct (ws c) eqn:E1.
    { right. split; [exact X'|]. exists s0, (lit "</" ++ n ++ w ++ [c]). split; [asc|]. split; [exact Hp|].
      exists (w ++ [c]). split; [reflexivity|]. now apply blanks_snoc. }
    destruct (c =? 62) eqn:E3; [|apply err_reached]. apply Z.eqb_eq in E3 as ->.
    unfold close_element. cbn [p_stack p_rooted p_evs]. destruct st as [|m st]; [apply err_reached|].
    destruct (str_eqb m n) eqn:E4; [|apply err_reached]. apply str_eqb_eq in E4 as ->.
    right. split; [exact X'|]. eexists _, []. rewrite app_nil_r. split; [reflexivity|]. cbn [p_stack p_rooted p_evs p_mode pend].
    split; [|reflexivity]. rewrite strip_app. rewrite <- !app_assoc.
    assert (rt = true) as -> by now rewrite place_in in Hp.
    exact (place_close n st true _ _ w Hp Hw).
  - destruct Hr.
Qed.

Lemma run_reached s : reached (run tstart s) s.
Proof.
  induction s as [|c s IH] using rev_ind.
  - right. split; [constructor|]. exists [], []. split; [reflexivity|]. split; [|reflexivity]. constructor. constructor.
  - unfold trun. rewrite fold_left_app. now apply step_reached.
Qed.

(** What is read without error is a document. *)
Theorem items_document s : ~ In IErr (titems (run tstart s)) -> exists e, document aw e s.
Proof.
  intros H. destruct (run_reached s) as [E|(X & s0 & r & -> & Hp & Hr)].
  - elim H. unfold titems. rewrite E. apply in_or_app. right. now left.
  - unfold titems in H. destruct (run tstart (s0 ++ r)) as [m st rt ev]. cbn [p_mode p_stack p_rooted p_evs] in *.
    assert (G : forall l, ~ In IErr (l ++ [IErr]) -> False) by (intros l N; apply N, in_or_app; right; now left).
    destruct m; try (exfalso; now apply G in H). destruct st; [|exfalso; now apply G in H]. destruct rt; [|exfalso; now apply G in H].
    cbn [pend] in Hr. subst r. rewrite app_nil_r in *. destruct Hp as (e & p & u & q & -> & A & B & C & _).
    exists e. split; [now apply legal_xchars|]. now exists p, u, q.
Qed.

End Inverse.
