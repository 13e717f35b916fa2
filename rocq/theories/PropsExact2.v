(** Exactly where more of the partly false properties hold: C25, C58, C59 and C69. *)
From Coq Require Import String ZArith List Bool Lia Permutation.
From Coq Require Import ZifyBool ZifyNat.
From Verif Require Import Base Ints Utf8 Obj SpecIter XmlWrite SpecXml SpecWriter XmlWriteFacts XmlToken XmlRead
  SpecXmlRead XmlReadFacts XmlReadBack PropsWriter PropsXml PropsFlow.
Import ListNotations.
Open Scope Z_scope.

(** ** C59 and C69 *)

(** What any number of calls returns on any file of elements: one reply for each element
    (its object, or None when the element denotes no object), then None for ever. *)
Theorem C69_each_call : forall els post, Forall good_element els -> Forall quiet post ->
  let items := map IEv (flat_map element_events els ++ post) in
  forall n, calls xml_next (length els + n) items = Ret (map element_object els ++ repeat None n) /\
            calls osc_next (length els + n) items = Ret (map element_object els ++ repeat None n).
Proof.
  intros els post Hg Hp. cbv zeta. intros n. induction Hg as [|e els He _ (IH1 & IH2)].
  - cbn [length Nat.add flat_map map app].
    assert (E1 : xml_next (map IEv post) = Ret (None, [])) by now apply next_end.
    assert (E2 : osc_next (map IEv post) = Ret (None, [])) by (rewrite osc_next_eq; exact E1).
    destruct n as [|n]; [split; reflexivity|]. cbn [calls repeat]. rewrite E1, E2. cbn [obind].
    rewrite !fixed_calls by reflexivity. split; reflexivity.
  - destruct He as (H1 & H2 & H3 & H4). cbn [flat_map length Nat.add map app]. rewrite <- app_assoc, map_app.
    destruct (C31_element _ _ _ _ (map IEv (flat_map element_events els ++ post)) H1 H2 H3 H4) as (E1 & E2).
    fold (element_events e) in E1, E2. cbn [calls]. rewrite E1, E2. cbn [obind]. rewrite IH1, IH2. split; reflexivity.
Qed.
Print Assumptions C69_each_call.

(** After a None, every reply is None. *)
Definition end_final {A} (l : list (option A)) : Prop :=
  forall i j, (i <= j)%nat -> nth_error l i = Some None -> (j < length l)%nat -> nth_error l j = Some None.

Lemma end_final_iff {A} (l : list (option A)) : end_final l <-> exists os n, l = map Some os ++ repeat None n.
Proof.
  split.
  - induction l as [|[a|] l IH]; intros H.
    + exists [], O. reflexivity.
    + destruct IH as (os & n & ->); [|exists (a :: os), n; reflexivity].
      intros i j Hij Hi Hj. apply (H (S i) (S j)); cbn; try lia; exact Hi.
    + exists [], (S (length l)). cbn [map app repeat]. f_equal.
      assert (G : forall j, (j < length l)%nat -> nth_error l j = Some None).
      { intros j Hj. apply (H O (S j)); cbn; try lia; reflexivity. }
      clear -G. induction l as [|a l IH]; [reflexivity|]. cbn [length repeat]. f_equal.
      * specialize (G O). cbn in G. assert (E : Some a = Some None) by (apply G; lia). now injection E.
      * apply IH. intros j Hj. apply (G (S j)). cbn. lia.
  - intros (os & n & ->) i j Hij Hi Hj.
    assert (Lt : ~ (i < length os)%nat).
    { intros C. rewrite nth_error_app1 in Hi by (rewrite map_length; exact C).
      apply nth_error_In, in_map_iff in Hi as (x & E & _). discriminate. }
    rewrite nth_error_app2 in * by (rewrite map_length; lia). rewrite app_length, map_length, repeat_length in Hj.
    rewrite map_length in *. assert (G : forall k m, (k < m)%nat -> nth_error (repeat (@None A) m) k = Some None).
    { induction k as [|k IHk]; intros m Hm; destruct m as [|m]; try lia; [reflexivity|]. cbn. apply IHk. lia. }
    apply G. lia.
Qed.

(** Exactly the files on which the end is final: those whose incomplete elements all stand
    at the end. *)
Theorem C69_exact : forall els post, Forall good_element els -> Forall quiet post ->
  let items := map IEv (flat_map element_events els ++ post) in
  (forall n, exists l, calls xml_next n items = Ret l /\ calls osc_next n items = Ret l) /\
  ((forall n l, calls xml_next n items = Ret l -> end_final l) <->
   end_final (map element_object els)).
Proof.
  intros els post Hg Hp. cbv zeta. pose proof (C69_each_call els post Hg Hp) as C. cbv zeta in C.
  assert (Pre : forall {St} (next : St -> outcome (option sobj * St)) n m s l, calls next (n + m) s = Ret l -> calls next n s = Ret (firstn n l)).
  { intros St next n m. induction n as [|n IH]; intros s l H; [reflexivity|]. cbn [calls Nat.add] in *.
    destruct (next s) as [[o s']|]; [|discriminate]. cbn [obind] in *.
    destruct (calls next (n + m) s') as [l'|] eqn:E; [|discriminate]. cbn [obind] in H. injection H as <-.
    rewrite (IH _ _ E). reflexivity. }
  split.
  - intros n. destruct (C n) as (C1 & C2). exists (firstn n (map element_object els ++ repeat None n)).
    rewrite (Nat.add_comm (length els) n) in C1, C2. split; [exact (Pre _ _ _ _ _ _ C1)|exact (Pre _ _ _ _ _ _ C2)].
  - split.
    + intros H. destruct (C O) as (C1 & _). rewrite Nat.add_0_r in C1. cbn [repeat] in C1. rewrite app_nil_r in C1. exact (H _ _ C1).
    + intros H n l Hl. destruct (C n) as (C1 & _). rewrite (Nat.add_comm (length els) n) in C1. apply Pre in C1.
      rewrite C1 in Hl. injection Hl as <-. apply end_final_iff in H as (os & m & ->).
      rewrite <- app_assoc, <- repeat_app. rewrite firstn_app.
      assert (F : forall k q, exists q', firstn k (repeat (@None sobj) q) = repeat None q').
      { induction k as [|k IHk]; intros q; [exists O; reflexivity|]. destruct q as [|q]; [exists O; reflexivity|].
        cbn. destruct (IHk q) as (q' & ->). exists (S q'). reflexivity. }
      destruct (F (n - length (map Some os))%nat (m + n)%nat) as (q' & ->). rewrite firstn_map.
      apply end_final_iff. eexists _, _. reflexivity.
Qed.
Print Assumptions C69_exact.

(** What a loop over the reader sees: the objects of the elements before the first
    incomplete one.  It sees everything exactly when no element is incomplete. *)
Theorem C59_exact : forall els post, Forall good_element els -> Forall quiet post ->
  let items := map IEv (flat_map element_events els ++ post) in
  exists os r, Runs xml_next items os (Ret r) /\ Runs osc_next items os (Ret r) /\
    (exists tl, map element_object els = map Some os ++ tl /\ (tl = [] \/ exists tl', tl = None :: tl')) /\
    ((forall e, In e els -> exists o, element_object e = Some o /\ In o os) <-> Forall (fun e => element_object e <> None) els).
Proof.
  assert (E : forall s l r, Runs xml_next s l r -> Runs osc_next s l r).
  { induction 1; [apply Runs_end|apply Runs_panic|eapply Runs_step]; rewrite ?osc_next_eq; eauto. }
  intros els post Hg Hp. cbv zeta.
  assert (G : exists os r, Runs xml_next (map IEv (flat_map element_events els ++ post)) os (Ret r) /\
    exists tl, map element_object els = map Some os ++ tl /\ (tl = [] \/ exists tl', tl = None :: tl')).
  { induction Hg as [|e els He _ (os & r & R & tl & Em & Ht)].
    - exists [], []. split; [apply Runs_end; now apply next_end|]. exists []. split; [reflexivity|now left].
    - destruct He as (H1 & H2 & H3 & H4). cbn [flat_map map]. rewrite <- app_assoc, map_app.
      destruct (C31_element _ _ _ _ (map IEv (flat_map element_events els ++ post)) H1 H2 H3 H4) as (E1 & _).
      fold (element_events e) (element_object e) in E1. destruct (element_object e) as [o|] eqn:Eo.
      + exists (o :: os), r. split; [eapply Runs_step; [exact E1|exact R]|]. exists tl. cbn [map app]. rewrite Em. now split.
      + exists [], (map IEv (flat_map element_events els ++ post)). split; [now apply Runs_end|].
        exists (None :: map element_object els). cbn [map app]. split; [reflexivity|right; eauto]. }
  destruct G as (os & r & R & tl & Em & Ht). exists os, r. split; [exact R|]. split; [now apply E|].
  split; [now exists tl|]. split.
  - intros H. apply Forall_forall. intros e He. destruct (H e He) as (o & -> & _). discriminate.
  - intros H e He. destruct (element_object e) as [o|] eqn:Eo.
    + exists o. split; [reflexivity|]. destruct Ht as [->|(tl' & ->)].
      * rewrite app_nil_r in Em. assert (I : In (Some o) (map Some os)) by (rewrite <- Em, <- Eo; now apply in_map).
        apply in_map_iff in I as (x & Ex & I). injection Ex as ->. exact I.
      * exfalso. assert (I : In None (map element_object els)) by (rewrite Em; apply in_app_iff; right; now left).
        apply in_map_iff in I as (x & Ex & I). rewrite Forall_forall in H. now apply (H x I).
    + rewrite Forall_forall in H. now elim (H e He).
Qed.
Print Assumptions C59_exact.

(** Three elements, the second without an id. *)
Definition ex_els : list element :=
  [Element [] (lit "way") [(lit "id", lit "5")] []; Element [EOther [10]] (lit "way") [] []; Element [] (lit "way") [(lit "id", lit "6")] []].
Example C69_exact_ex : Forall good_element ex_els /\ ~ end_final (map element_object ex_els) /\
  end_final (map element_object (firstn 2 ex_els)).
Proof.
  split; [|split].
  - assert (G : forall pre a, Forall quiet pre -> NoDup (map fst a) -> good_element (Element pre (lit "way") a [])).
    { intros pre a H1 H2. unfold good_element. cbn [el_pre el_name el_attrs el_body].
      split; [exact H1|]. split; [right; now left|]. split; [constructor|]. constructor; [exact H2|constructor]. }
    unfold ex_els. apply Forall_cons; [|apply Forall_cons; [|apply Forall_cons; [|constructor]]];
      apply G; repeat constructor; cbn; intuition.
  - intros H. specialize (H 1%nat 2%nat). vm_compute in H. assert (X := H ltac:(lia) eq_refl ltac:(lia)). discriminate.
  - apply end_final_iff. exists [SWay (SW (Meta 5 None false None None None None) [] [])], 1%nat. vm_compute. reflexivity.
Qed.

(** ** C25 *)

Lemma header_map_det hs hs' l : header_map hs l -> header_map hs' l -> Permutation hs hs'.
Proof.
  intros (N1 & H1) (N2 & H2). apply NoDup_Permutation.
  - exact (NoDup_map_inv _ _ N1).
  - exact (NoDup_map_inv _ _ N2).
  - intros (k & v). rewrite H1, H2. reflexivity.
Qed.

Lemma flat_map_length_perm {A B} (f : A -> list B) l l' : Permutation l l' -> length (flat_map f l) = length (flat_map f l').
Proof. induction 1; cbn; rewrite ?app_length; lia. Qed.

Lemma opening_length hs hs' : Permutation hs hs' -> length (utf8 (xml_opening hs)) = length (utf8 (xml_opening hs')).
Proof.
  intros P. unfold xml_opening. rewrite !attrs_text_app, !utf8_app, !app_length.
  assert (L : length (utf8 (attrs_text (map (fun h => (fst h, esc (snd h))) hs))) =
              length (utf8 (attrs_text (map (fun h => (fst h, esc (snd h))) hs')))); [|lia].
  unfold attrs_text. rewrite !utf8_flat_map. apply flat_map_length_perm. now apply Permutation_map.
Qed.

(** Exactly the histories after which the output is the document: those with one close. *)
Theorem C25_exact : forall ord, (forall l, Permutation (ord l) l) -> forall cs,
  Forall (fun o => m_version (s_meta o) <> None) (written cs) ->
  ((exists hs, header_map hs (header_calls cs) /\
     out (fst (run_calls (xml_call ord) (new_writer None) cs)) = utf8 (xml_document hs (written cs)))
   <-> closes cs = 1%nat).
Proof.
  intros ord Hord cs Hv. split; [|intros Hc; now apply C25_document_partial].
  intros (hs & Hh & Ho). destruct (C23_xml_output ord Hord cs) as (hs' & Hh' & Ho' & _). rewrite Ho in Ho'.
  pose proof (opening_length _ _ (header_map_det _ _ _ Hh Hh')) as L.
  apply (f_equal (@length _)) in Ho'. unfold xml_document in Ho'. rewrite !utf8_app, !app_length in Ho'.
  assert (Lc : length (utf8 xml_closing) = 7%nat) by reflexivity. rewrite Lc in Ho'.
  destruct (started cs) eqn:Es; [|cbn in Ho'; lia]. rewrite write_texts in Ho' by exact Hv.
  rewrite !utf8_app, !app_length in Ho'.
  assert (Lr : forall n, length (utf8 (concat (repeat xml_closing n))) = (7 * n)%nat).
  { induction n as [|n IH]; [reflexivity|]. cbn [repeat concat]. rewrite utf8_app, app_length, IH, Lc. lia. }
  rewrite Lr in Ho'. lia.
Qed.
Print Assumptions C25_exact.
Example C25_exact_ex : closes [CSetHeader (lit "a") (lit "1"); CWrite ex_node; CClose; CClose] = 2%nat /\
  closes [CSetHeader (lit "a") (lit "1"); CWrite ex_node; CClose] = 1%nat /\
  written [CSetHeader (lit "a") (lit "1"); CWrite ex_node; CClose; CClose] = [ex_node] /\ m_version (s_meta ex_node) <> None.
Proof. repeat split; discriminate. Qed.

(** ** C58 *)

Lemma call_not_initial ord w c : w_state w <> Initial -> w_state (fst (xml_call ord w c)) <> Initial.
Proof.
  intros H. destruct c as [k v|o|]; cbn [xml_call].
  - unfold xml_set_header. destruct (w_state w) eqn:E; cbn [fst]; congruence.
  - unfold xml_write_obj. destruct (w_state w) eqn:E; [easy| |cbn; congruence].
    destruct (xml_write_body o (w_sink w)) as [s r]. cbn. congruence.
  - unfold xml_close, xml_ensure_header. destruct (w_state w) eqn:E; [easy| |];
      destruct (emit _ (w_sink w)) as [s [| |]]; cbn; congruence.
Qed.
Lemma run_not_initial ord cs : forall w, w_state w <> Initial -> w_state (fst (run_calls (xml_call ord) w cs)) <> Initial.
Proof.
  induction cs as [|c cs IH]; intros w H; [exact H|]. cbn [run_calls]. pose proof (call_not_initial ord w c H) as H1.
  destruct (xml_call ord w c) as [w1 x]. specialize (IH w1 H1). destruct (run_calls (xml_call ord) w1 cs) as [w2 xs]. exact IH.
Qed.

(** A sink with too little room for the opening: the state does not change. *)
Lemma header_short ord o h n : (n < length (utf8 (xml_opening (ord h))))%nat ->
  exists o', xml_ensure_header ord (Writer (Sink o (Some n)) h Initial) = (Writer (Sink o' (Some O)) h Initial, WErr EIo).
Proof.
  intros H. unfold xml_ensure_header. cbn [w_state w_headers w_sink]. pose proof (sem_xml_header (ord h) (Sink o (Some n))) as S.
  cbn [s_cap s_out] in S. rewrite (proj2 (Nat.leb_gt _ _) H) in S. rewrite S. eexists. reflexivity.
Qed.
Lemma header_fits ord o h n : (length (utf8 (xml_opening (ord h))) <= n)%nat ->
  exists s, xml_ensure_header ord (Writer (Sink o (Some n)) h Initial) = (Writer s h WritingObjects, WOk tt).
Proof.
  intros H. unfold xml_ensure_header. cbn [w_state w_headers w_sink]. pose proof (sem_xml_header (ord h) (Sink o (Some n))) as S.
  cbn [s_cap s_out] in S. rewrite (proj2 (Nat.leb_le _ _) H) in S. rewrite S. eexists. reflexivity.
Qed.

Lemma opening_pos hs : (0 < length (utf8 (xml_opening hs)))%nat.
Proof. unfold xml_opening. rewrite utf8_app, app_length. cbn. lia. Qed.

Lemma call_short ord c o h n : is_set c = false -> (n < length (utf8 (xml_opening (ord h))))%nat ->
  exists o', fst (xml_call ord (Writer (Sink o (Some n)) h Initial) c) = Writer (Sink o' (Some O)) h Initial.
Proof.
  intros Hc H. destruct (header_short ord o h n H) as (o' & E). exists o'. destruct c as [k v|x|]; [discriminate| |]; cbn [xml_call].
  - unfold xml_write_obj. cbn [w_state]. now rewrite E.
  - unfold xml_close. now rewrite E.
Qed.
Lemma call_fits ord c o h n : is_set c = false -> (length (utf8 (xml_opening (ord h))) <= n)%nat ->
  w_state (fst (xml_call ord (Writer (Sink o (Some n)) h Initial) c)) <> Initial.
Proof.
  intros Hc H. destruct (header_fits ord o h n H) as (s & E). destruct c as [k v|x|]; [discriminate| |]; cbn [xml_call].
  - unfold xml_write_obj. cbn [w_state]. rewrite E. cbn [w_sink]. destruct (xml_write_body x s) as [s' r]. discriminate.
  - unfold xml_close. rewrite E. cbn [w_sink]. destruct (emit _ s) as [s' [| |]]; discriminate.
Qed.

Lemma stuck ord cs : forall o h, w_state (fst (run_calls (xml_call ord) (Writer (Sink o (Some O)) h Initial) cs)) = Initial.
Proof.
  induction cs as [|c cs IH]; intros o h; [reflexivity|]. cbn [run_calls]. destruct (is_set c) eqn:Ec.
  - destruct c as [k v|x|]; try discriminate. cbn [xml_call xml_set_header w_state w_sink w_headers].
    specialize (IH o (map_insert k v h)). now destruct (run_calls _ _ cs).
  - destruct (call_short ord c o h O Ec (opening_pos _)) as (o' & E). destruct (xml_call ord _ c) as [w1 x]. cbn [fst] in E. subst w1.
    specialize (IH o' h). now destruct (run_calls _ _ cs).
Qed.

Lemma initial_iff ord cs : forall o h n,
  w_state (fst (run_calls (xml_call ord) (Writer (Sink o (Some n)) h Initial) cs)) = Initial <->
  started cs = false \/ (n < length (utf8 (xml_opening (ord (headers_of (header_calls cs) h)))))%nat.
Proof.
  induction cs as [|c cs IH]; intros o h n; [cbn; split; auto|]. cbn [run_calls]. destruct (is_set c) eqn:Ec.
  - destruct c as [k v|x|]; try discriminate. cbn [xml_call xml_set_header w_state w_sink w_headers].
    specialize (IH o (map_insert k v h) n). destruct (run_calls _ _ cs). exact IH.
  - replace (header_calls (c :: cs)) with (@nil (str * str)) by now destruct c. cbn [headers_of fold_left].
    assert (Es : started (c :: cs) = true) by (cbn; now rewrite Ec). rewrite Es.
    destruct (Nat.lt_ge_cases n (length (utf8 (xml_opening (ord h))))) as [H|H].
    + destruct (call_short ord c o h n Ec H) as (o' & E). destruct (xml_call ord _ c) as [w1 x]. cbn [fst] in E. subst w1.
      pose proof (stuck ord cs o' h) as S. destruct (run_calls _ _ cs). split; auto.
    + pose proof (call_fits ord c o h n Ec H) as F. destruct (xml_call ord _ c) as [w1 x]. cbn [fst] in F.
      pose proof (run_not_initial ord cs w1 F) as S. destruct (run_calls _ w1 cs) as [w2 xs]. cbn [fst] in *.
      split; [contradiction|]. intros [C|C]; [discriminate|lia].
Qed.

(** Exactly when set_header is still accepted, on a sink that takes [n] bytes: before the
    first write or close, and for ever when the sink has no room for the opening of the
    document.  A refused call changes nothing. *)
Theorem C58_exact : forall ord, (forall l, Permutation (ord l) l) -> forall cs k v n,
  let w := fst (run_calls (xml_call ord) (new_writer (Some n)) cs) in
  exists hs, header_map hs (header_calls cs) /\
  (snd (xml_call ord w (CSetHeader k v)) = WOk tt <->
     started cs = false \/ (n < length (utf8 (xml_opening hs)))%nat) /\
  (snd (xml_call ord w (CSetHeader k v)) <> WOk tt -> fst (xml_call ord w (CSetHeader k v)) = w) /\
  ((out w <> [] -> snd (xml_call ord w (CSetHeader k v)) <> WOk tt) <->
     started cs = false \/ n = O \/ (length (utf8 (xml_opening hs)) <= n)%nat).
Proof.
  intros ord Hord cs k v n. cbv zeta. exists (ord (headers_of (header_calls cs) [])).
  split; [eapply header_map_perm; [apply Hord|apply headers_of_spec]|].
  pose proof (initial_iff ord cs [] [] n) as I. fold (new_writer (Some n)) in I.
  destruct (C26_xml ord cs n) as (Hpre & _). destruct (C23_xml_output ord Hord cs) as (hs & Hh & Ho & _).
  set (w := fst (run_calls (xml_call ord) (new_writer (Some n)) cs)) in *.
  set (len := length (utf8 (xml_opening (ord (headers_of (header_calls cs) []))))) in *.
  assert (A : snd (xml_call ord w (CSetHeader k v)) = WOk tt <-> w_state w = Initial).
  { cbn [xml_call]. unfold xml_set_header. destruct (w_state w); cbn [snd]; split; congruence. }
  split; [rewrite A; exact I|]. split.
  - cbn [xml_call]. unfold xml_set_header. destruct (w_state w) eqn:E; cbn [fst snd]; [intros C; now elim C|reflexivity|reflexivity].
  - rewrite A, I. fold (out w) in Hpre. destruct (started cs) eqn:Es.
    + assert (P : (0 < length (out (fst (run_calls (xml_call ord) (new_writer None) cs))))%nat).
      { rewrite Ho, utf8_app, app_length. pose proof (opening_pos hs). lia. }
      assert (N : out w <> [] <-> n <> O).
      { rewrite Hpre. destruct (out (fst (run_calls (xml_call ord) (new_writer None) cs))) as [|x l]; [cbn in P; lia|].
        destruct n; cbn [firstn]; split; congruence. }
      rewrite N. split; [|intros [C|[C|C]] H [D|D]; congruence || lia].
      intros H. right. destruct (Nat.eq_dec n 0) as [->|Hn]; [now left|]. right.
      destruct (Nat.lt_ge_cases n len) as [C|C]; [|exact C]. elim (H Hn). now right.
    + rewrite Hpre, Ho. cbn [utf8 flat_map]. rewrite firstn_nil. split; [now left|]. intros _ C. now elim C.
Qed.
Print Assumptions C58_exact.
Example C58_exact_ex : started [CWrite ex_node] = true /\ (30 < length (utf8 (xml_opening [])))%nat /\ header_calls [CWrite ex_node] = [].
Proof. split; [reflexivity|]. split; [cbn; lia|reflexivity]. Qed.
