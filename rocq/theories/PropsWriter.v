(** C01, C23-C26, C58: the XML and OSC writers. *)
From Coq Require Import String ZArith List Bool Lia Permutation.
From Coq Require Import ZifyBool ZifyNat.
From Verif Require Import Base Ints Timestamp Obj Coord Utf8 XmlWrite SpecXml SpecWriter XmlWriteFacts
  XmlToken SpecXmlRead XmlRead SpecIter XmlRound XmlReadBack.
Import ListNotations.
Open Scope Z_scope.

(** ** C01 *)

(** What write_xml_escaped sends to a sink that does not fail. *)
Theorem C01_escaping : forall s, exists t,
  write_xml_escaped s (Sink [] None) = (Sink (utf8 t) None, WOk tt)
  /\ inert t /\ Resolves t s /\ forall s', Resolves t s' -> s' = s.
Proof.
  intros s. exists (esc s). split; [|split; [apply esc_inert|split; [apply esc_resolves|]]].
  - pose proof (sem_escaped s (Sink [] None)) as H. exact H.
  - intros s' H. symmetry. exact (resolves_det _ _ (esc_resolves s) _ H).
Qed.
Print Assumptions C01_escaping.

Example C01_ex : write_xml_escaped (lit "<a&amp;'" ++ [34; 233]) (Sink [] None)
  = (Sink (utf8 (lit "&lt;a&amp;amp;&apos;&quot;" ++ [233])) None, WOk tt).
Proof. vm_compute. reflexivity. Qed.

(** ** C23 *)

Definition ok_close (p : call * wres unit) : bool :=
  is_close (fst p) && match snd p with WOk _ => true | _ => false end.

Definition keeps_open (f : writer -> call -> writer * wres unit) : Prop :=
  forall w c, is_open (fst (f w c)) = is_open w && negb (ok_close (c, snd (f w c))).

Lemma keeps_open_run f : keeps_open f -> forall cs w,
  let '(w', rs) := run_calls f w cs in
  length rs = length cs /\ is_open w' = is_open w && negb (existsb ok_close (combine cs rs)).
Proof.
  intros H. induction cs as [|c cs IH]; intros w; cbn [run_calls].
  - split; [easy|]. cbn. now rewrite andb_true_r.
  - pose proof (H w c) as Hc. destruct (f w c) as [w1 x]. specialize (IH w1).
    destruct (run_calls f w1 cs) as [w2 xs]. destruct IH as [E1 E2]. cbn [fst snd] in Hc.
    split; [cbn; now rewrite E1|]. rewrite E2, Hc. cbn [combine existsb].
    now rewrite negb_orb, andb_assoc.
Qed.

Lemma xml_keeps_open ord : keeps_open (xml_call ord).
Proof.
  intros w c. destruct w as [s h st]. destruct c as [k v|o|]; destruct st;
    unfold xml_call, xml_set_header, xml_write_obj, xml_close, xml_ensure_header; cbn [w_state w_sink w_headers];
    try reflexivity.
  all: repeat match goal with
    | |- context [match ?m ?s with (_, _) => _ end] =>
        let r := fresh "r" in destruct (m s) as [? r]; try destruct r as [[]| |];
        cbn [w_state w_sink w_headers]
    end; reflexivity.
Qed.

Lemma osc_keeps_open : keeps_open osc_call.
Proof.
  intros w c. destruct w as [s h st]. destruct c as [k v|o|]; destruct st;
    unfold osc_call, osc_set_header, osc_write_obj, osc_close, osc_ensure_header; cbn [w_state w_sink w_headers];
    try reflexivity.
  all: repeat match goal with
    | |- context [match ?m ?s with (_, _) => _ end] =>
        let r := fresh "r" in destruct (m s) as [? r]; try destruct r as [[]| |];
        cbn [w_state w_sink w_headers]
    end; reflexivity.
Qed.

(** Open until the first successful close and never again, whatever the sink
    does. *)
Theorem C23_open : forall f, (exists ord, f = xml_call ord) \/ f = osc_call ->
  forall cap cs, let '(w, rs) := run_calls f (new_writer cap) cs in
  length rs = length cs
  /\ (is_open w = false <-> exists i, nth_error cs i = Some CClose /\ nth_error rs i = Some (WOk tt)).
Proof.
  intros f Hf cap cs.
  assert (K : keeps_open f) by (destruct Hf as [[ord ->] | ->]; [apply xml_keeps_open|apply osc_keeps_open]).
  pose proof (keeps_open_run f K cs (new_writer cap)) as H.
  destruct (run_calls f (new_writer cap) cs) as [w rs]. destruct H as [E1 E2]. split; [easy|].
  rewrite E2. cbn [is_open new_writer w_state andb]. rewrite negb_false_iff. clear E2.
  revert rs E1. induction cs as [|c cs IH]; intros [|r rs] E1; try discriminate.
  - cbn. split; [discriminate|]. intros ([|i] & H & _); discriminate.
  - cbn [combine existsb]. rewrite orb_true_iff. rewrite (IH rs) by (cbn in E1; lia). split.
    + intros [H|(i & H1 & H2)]; [exists O|exists (S i); easy].
      unfold ok_close in H. cbn [fst snd] in H. apply andb_prop in H as [H1 H2].
      destruct c; try discriminate. destruct r as [[]| |]; try discriminate. easy.
    + intros ([|i] & H1 & H2); [left|right; exists i; easy].
      cbn in H1, H2. injection H1 as ->. injection H2 as ->. reflexivity.
Qed.
Print Assumptions C23_open.

(** Closed writers refuse objects (and headers) and are not changed, whatever the
    sink does. *)
Theorem C23_closed_refuses : forall ord w o k v, is_open w = false ->
  xml_call ord w (CWrite o) = (w, WErr EClosed) /\ osc_call w (CWrite o) = (w, WErr EClosed)
  /\ xml_call ord w (CSetHeader k v) = (w, WErr EClosed).
Proof. intros ord [s h []] o k v H; try discriminate. easy. Qed.
Print Assumptions C23_closed_refuses.

Lemma new_run f step : refines f step -> forall cs,
  let '(t, st, h, rs) := steps step cs Initial [] in
  run_calls f (new_writer None) cs = (Writer (Sink (utf8 t) None) h st, rs).
Proof.
  intros R cs. pose proof (run_uncapped f step R cs Initial [] []) as H.
  destruct (steps step cs Initial []) as [[[t st] h] rs]. exact H.
Qed.

Lemma header_map_perm hs hs' l : Permutation hs' hs -> header_map hs l -> header_map hs' l.
Proof.
  intros P [H1 H2]. split.
  - eapply Permutation_NoDup; [apply Permutation_map, Permutation_sym, P|exact H1].
  - intros k v. rewrite <- H2. split; apply Permutation_in; [exact P|now apply Permutation_sym].
Qed.

(** The output after any history: nothing until the first write or close, then
    the opening with the headers set before it (each key once, with its last
    value), then the objects written before the first close, then one end tag per
    close. *)
Theorem C23_xml_output : forall ord, (forall l, Permutation (ord l) l) -> forall cs,
  let w := fst (run_calls (xml_call ord) (new_writer None) cs) in
  exists hs, header_map hs (header_calls cs)
  /\ out w = utf8 (if started cs then
       xml_opening hs ++ flat_map write_text (written cs) ++ concat (repeat xml_closing (closes cs))
     else [])
  /\ is_open w = negb (closed cs).
Proof.
  intros ord Hord cs. cbv zeta. pose proof (new_run _ _ (xml_refines ord) cs) as H.
  pose proof (steps_initial_xml ord cs []) as S.
  destruct (steps (xml_step ord) cs Initial []) as [[[t st] h] rs]. rewrite H.
  destruct S as (-> & -> & ->). exists (ord (headers_of (header_calls cs) [])).
  split; [eapply header_map_perm; [apply Hord|apply headers_of_spec]|].
  split; [reflexivity|]. unfold is_open. cbn. destruct (closed cs); [easy|]. now destruct (started cs).
Qed.
Print Assumptions C23_xml_output.

(** What the next call returns after any history on a sink that does not fail,
    and that refused calls change nothing. *)
Theorem C23_xml_results : forall ord cs c,
  let w := fst (run_calls (xml_call ord) (new_writer None) cs) in
  let r := snd (xml_call ord w c) in
  r = match c with
      | CSetHeader _ _ => if closed cs then WErr EClosed else if started cs then WErr EStarted else WOk tt
      | CWrite o => if closed cs then WErr EClosed else write_res o
      | CClose => WOk tt
      end
  /\ (forall e, r = WErr e -> fst (xml_call ord w c) = w).
Proof.
  intros ord cs c. cbv zeta. pose proof (new_run _ _ (xml_refines ord) cs) as H.
  pose proof (steps_initial_xml ord cs []) as S.
  destruct (steps (xml_step ord) cs Initial []) as [[[t st] h] rs]. rewrite H.
  destruct S as (_ & -> & _). cbn [fst].
  assert (G : forall st, let '(t', st', h', r) := xml_step ord c st h in
    snd (xml_call ord (Writer (Sink (utf8 t) None) h st) c) = r
    /\ (forall e, r = WErr e -> fst (xml_call ord (Writer (Sink (utf8 t) None) h st) c)
         = Writer (Sink (utf8 t) None) h st)).
  { intros s0. pose proof (xml_refines ord c s0 h) as R.
    destruct (xml_step ord c s0 h) as [[[t' st'] h'] r] eqn:Es. destruct R as [R1 _].
    rewrite (R1 (utf8 t)). split; [easy|]. intros e ->. cbn [fst].
    destruct c, s0; cbn in Es; try discriminate; injection Es as <- <- <-;
      try (now rewrite app_nil_r);
      now elim (write_res_neq o e). }
  specialize (G (if closed cs then Closed else if started cs then WritingObjects else Initial)).
  destruct (xml_step ord c (if closed cs then Closed else if started cs then WritingObjects else Initial) h)
    as [[[t' st'] h'] r] eqn:Es. destruct G as [-> G2]. split; [|exact G2].
  destruct c; cbn in Es; destruct (closed cs), (started cs); injection Es; intros; subst; reflexivity.
Qed.
Print Assumptions C23_xml_results.

(** The same for OSC; set_header is not implemented there and panics. *)
Theorem C23_osc_results : forall cs c,
  let w := fst (run_calls osc_call (new_writer None) cs) in
  let r := snd (osc_call w c) in
  r = match c with
      | CSetHeader _ _ => WPanic
      | CWrite o => if closed cs then WErr EClosed else write_res o
      | CClose => WOk tt
      end
  /\ (forall e, r = WErr e -> fst (osc_call w c) = w).
Proof.
  intros cs c. cbv zeta. pose proof (new_run _ _ osc_refines cs) as H.
  pose proof (steps_initial_osc cs []) as S.
  destruct (steps osc_step cs Initial []) as [[[t st] h] rs]. rewrite H.
  destruct S as (_ & -> & _). cbn [fst].
  assert (G : forall st, let '(t', st', h', r) := osc_step c st h in
    snd (osc_call (Writer (Sink (utf8 t) None) h st) c) = r
    /\ (forall e, r = WErr e -> fst (osc_call (Writer (Sink (utf8 t) None) h st) c)
         = Writer (Sink (utf8 t) None) h st)).
  { intros s0. pose proof (osc_refines c s0 h) as R.
    destruct (osc_step c s0 h) as [[[t' st'] h'] r] eqn:Es. destruct R as [R1 _].
    rewrite (R1 (utf8 t)). split; [easy|]. intros e ->. cbn [fst].
    destruct c, s0; cbn in Es; try discriminate; injection Es as <- <- <-;
      try (now rewrite app_nil_r);
      now elim (write_res_neq o e). }
  specialize (G (if closed cs then Closed else if started cs then WritingObjects else Initial)).
  destruct (osc_step c (if closed cs then Closed else if started cs then WritingObjects else Initial) h)
    as [[[t' st'] h'] r] eqn:Es. destruct G as [-> G2]. split; [|exact G2].
  destruct c; cbn in Es; destruct (closed cs), (started cs); injection Es; intros; subst; reflexivity.
Qed.
Print Assumptions C23_osc_results.

(** A node and a way to show things with. *)
Definition ex_meta : meta := Meta 7 (Some 2) false (Some 5) (Some (EpochNumber 951782400)) (Some 9) (Some (lit "a<b")).
Definition ex_node : sobj := SNode (SN ex_meta [] (Some (513570000, -1))).
Definition ex_way : sobj := SWay (SW ex_meta [(lit "highway", lit "x&y")] [1; -2]).

Example C23_ex :
  snd (run_calls (xml_call (fun l => l)) (new_writer None)
         [CSetHeader (lit "a") (lit "1"); CWrite ex_node; CSetHeader (lit "b") (lit "2"); CClose;
          CWrite ex_way; CSetHeader (lit "c") (lit "3")])
  = [WOk tt; WOk tt; WErr EStarted; WOk tt; WErr EClosed; WErr EClosed].
Proof. vm_compute. reflexivity. Qed.

(** ** C24 *)

(** After any history and a final close (explicit or by drop) the OSC output is
    the one document of the objects written before the first close. *)
Theorem C24_document : forall cs, Forall (fun o => m_version (s_meta o) <> None) (written cs) ->
  out (fst (run_calls osc_call (new_writer None) (cs ++ [CClose]))) = utf8 (osc_document (written cs)).
Proof.
  intros cs Hv. pose proof (new_run _ _ osc_refines (cs ++ [CClose])) as H.
  pose proof (steps_initial_osc (cs ++ [CClose]) []) as S.
  destruct (steps osc_step (cs ++ [CClose]) Initial []) as [[[t st] h] rs]. rewrite H.
  destruct S as (-> & _ & _). cbn [fst out w_sink s_out].
  assert (E1 : started (cs ++ [CClose]) = true) by (unfold started; rewrite existsb_app; apply orb_true_r).
  assert (E2 : closed (cs ++ [CClose]) = true) by (unfold closed; rewrite existsb_app; apply orb_true_r).
  assert (E3 : forall l, written (l ++ [CClose]) = written l)
    by (induction l as [|[]]; cbn; congruence).
  rewrite E1, E2, E3. unfold osc_document. f_equal. f_equal. f_equal.
  rewrite !flat_map_concat_map. f_equal. apply map_ext_in. intros o Ho.
  rewrite Forall_forall in Hv. specialize (Hv o Ho). unfold write_text. now destruct (m_version (s_meta o)).
Qed.
Print Assumptions C24_document.

(** ... and that document is well-formed when the texts can be carried. *)
Theorem C24_well_formed : forall attr_ws, normalises attr_ws -> forall os,
  Forall (xml_object attr_ws) os -> exists evs, xml_items attr_ws (utf8 (osc_document os)) = map IEv evs.
Proof. intros w Hw os Ho. eexists. now apply osc_items_document. Qed.
Print Assumptions C24_well_formed.

Example C24_ex : out (fst (run_calls osc_call (new_writer None) [CWrite ex_node; CClose; CClose; CWrite ex_way; CClose]))
  = utf8 (osc_document [ex_node]).
Proof. vm_compute. reflexivity. Qed.

(** ** C25 *)

Lemma write_texts os : Forall (fun o => m_version (s_meta o) <> None) os ->
  flat_map write_text os = flat_map obj_text os.
Proof.
  intros Hv. rewrite !flat_map_concat_map. f_equal. apply map_ext_in. intros o Ho.
  rewrite Forall_forall in Hv. specialize (Hv o Ho). unfold write_text. now destruct (m_version (s_meta o)).
Qed.

Lemma closes_started cs : (0 < closes cs)%nat -> started cs = true.
Proof.
  unfold closes, started. induction cs as [|[] cs IH]; cbn; intros H; try lia; try reflexivity. now apply IH.
Qed.

(** One close, explicit or by drop: the document.  Missing from C25: histories
    with more closes. *)
Theorem C25_document_partial : forall ord, (forall l, Permutation (ord l) l) -> forall cs,
  closes cs = 1%nat -> Forall (fun o => m_version (s_meta o) <> None) (written cs) ->
  exists hs, header_map hs (header_calls cs)
  /\ out (fst (run_calls (xml_call ord) (new_writer None) cs)) = utf8 (xml_document hs (written cs)).
Proof.
  intros ord Hord cs Hc Hv. destruct (C23_xml_output ord Hord cs) as (hs & H1 & H2 & _).
  exists hs. split; [easy|]. rewrite H2, closes_started, Hc, write_texts by (try easy; lia).
  cbn [repeat concat]. rewrite app_nil_r. reflexivity.
Qed.
Print Assumptions C25_document_partial.

(** ... well-formed, when header names are XML names other than version and
    generator and all texts can be carried. *)
Theorem C25_well_formed_partial : forall attr_ws, normalises attr_ws -> forall hs os,
  good_headers attr_ws hs -> Forall (xml_object attr_ws) os ->
  exists evs, xml_items attr_ws (utf8 (xml_document hs os)) = map IEv evs.
Proof. intros w Hw hs os Hh Ho. eexists. now apply xml_items_document. Qed.
Print Assumptions C25_well_formed_partial.

(** False with more closes: an explicit close followed by drop (whatever was
    written before) leaves a second root end tag, and the result is not
    well-formed XML. *)
Theorem C25_second_close_refuted : forall attr_ws, normalises attr_ws ->
  forall ord, (forall l, Permutation (ord l) l) -> forall cs,
  (2 <= closes cs)%nat -> Forall (xml_object attr_ws) (written cs) -> header_calls cs = [] ->
  exists evs, xml_items attr_ws (out (fst (run_calls (xml_call ord) (new_writer None) cs)))
    = map IEv evs ++ [IErr].
Proof.
  intros w Hw ord Hord cs Hc Ho Hh. destruct (C23_xml_output ord Hord cs) as (hs & H1 & H2 & _).
  assert (hs = []) as ->.
  { rewrite Hh in H1. destruct H1 as [_ H1]. destruct hs as [|[k v] hs]; [easy|].
    assert (E : last_value k [] = Some v) by (apply H1; now left). discriminate. }
  assert (Hv : Forall (fun o => m_version (s_meta o) <> None) (written cs)).
  { eapply Forall_impl; [|exact Ho]. intros o (_ & H & _). exact H. }
  rewrite H2, closes_started, write_texts by (try easy; lia).
  destruct (closes cs) as [|[|n]]; try lia. cbn [repeat concat].
  replace (xml_opening [] ++ flat_map obj_text (written cs) ++ xml_closing ++ xml_closing
      ++ concat (repeat xml_closing n))
    with (xml_document [] (written cs) ++ concat (repeat xml_closing (S n)))
    by (unfold xml_document; cbn [repeat concat]; now rewrite <- !app_assoc).
  eexists. apply xml_items_reclosed; auto.
  repeat split; try constructor; easy.
Qed.
Print Assumptions C25_second_close_refuted.

Example C25_ex : closes [CWrite ex_node; CClose; CClose] = 2%nat
  /\ xml_object (fun c => c) ex_node /\ normalises (fun c => c) /\
  out (fst (run_calls (xml_call (fun l => l)) (new_writer None) [CWrite ex_node; CClose; CClose]))
  = utf8 (xml_document [] [ex_node] ++ [10] ++ lit "</osm>").
Proof.
  split; [reflexivity|]. split; [|split; [easy|vm_compute; reflexivity]].
  unfold xml_object, in_range, has_position, texts_carried, carried, opt_prop, in_i64, in_u32, in_i32.
  cbn. repeat split; try lia; try easy; repeat constructor; easy.
Qed.

(** from_iter closes; the writer it returns closes again when dropped. *)
Theorem C25_from_iter_refuted :
  let '(w, r) := from_iter (xml_call (fun l => l)) None [ex_node] in
  r = WOk tt /\ out (fst (xml_close (fun l => l) w)) = utf8 (xml_document [] [ex_node] ++ xml_closing).
Proof. vm_compute. split; reflexivity. Qed.
Print Assumptions C25_from_iter_refuted.

(** ** C26 *)

(** On a sink that fails after [n] bytes, exactly the first [n] bytes of the
    output of the same calls on a sink that never fails reach it (all of them,
    if there are fewer).  A call whose output fits returns what it returns on the
    other sink; the call during which the sink fails returns the I/O error. *)
Definition prefix_on_failure (f : writer -> call -> writer * wres unit) : Prop :=
  forall cs n,
  out (fst (run_calls f (new_writer (Some n)) cs)) = firstn n (out (fst (run_calls f (new_writer None) cs)))
  /\ forall k, (k < length cs)%nat ->
     let len j := length (out (fst (run_calls f (new_writer None) (firstn j cs)))) in
     let good := snd (run_calls f (new_writer None) cs) in
     let bad := snd (run_calls f (new_writer (Some n)) cs) in
     ((len (S k) <= n)%nat -> nth_error bad k = nth_error good k)
     /\ ((len k <= n < len (S k))%nat -> nth_error bad k = Some (WErr EIo)).

Lemma refines_prefix f step : refines f step -> prefix_on_failure f.
Proof.
  intros R cs n. split.
  - pose proof (run_capped f step R cs Initial [] [] n) as H1. pose proof (new_run f step R cs) as H2.
    destruct (steps step cs Initial []) as [[[t st] h] rs]. rewrite H2. exact H1.
  - intros k Hk. exact (run_results f step R cs Initial [] [] n k Hk).
Qed.

Theorem C26_xml : forall ord, prefix_on_failure (xml_call ord).
Proof. intros ord. exact (refines_prefix _ _ (xml_refines ord)). Qed.
Print Assumptions C26_xml.

Theorem C26_osc : prefix_on_failure osc_call.
Proof. exact (refines_prefix _ _ osc_refines). Qed.
Print Assumptions C26_osc.

Example C26_ex : run_calls osc_call (new_writer (Some 50%nat)) [CWrite ex_node; CClose]
  = (Writer (Sink (firstn 50 (utf8 osc_opening)) (Some O)) [] Initial, [WErr EIo; WErr EIo]).
Proof. vm_compute. reflexivity. Qed.

(** ** C58: false of the code *)

(** After a write that failed in the middle of the header, set_header is still
    accepted although bytes have reached the sink. *)
Theorem C58_set_header_refuted :
  let '(w, rs) := run_calls (xml_call (fun l => l)) (new_writer (Some 30%nat))
                    [CWrite ex_node; CSetHeader (lit "a") (lit "1")] in
  length (out w) = 30%nat /\ rs = [WErr EIo; WOk tt].
Proof. vm_compute. split; reflexivity. Qed.
Print Assumptions C58_set_header_refuted.

(** What holds: on a sink that has not failed, it is refused once anything was
    written.  Missing from C58: sinks that fail. *)
Theorem C58_set_header_partial : forall ord, (forall l, Permutation (ord l) l) -> forall cs k v,
  let w := fst (run_calls (xml_call ord) (new_writer None) cs) in
  out w <> [] -> exists e, xml_call ord w (CSetHeader k v) = (w, WErr e).
Proof.
  intros ord Hord cs k v w Ho. destruct (C23_xml_output ord Hord cs) as (hs & _ & H2 & _).
  destruct (C23_xml_results ord cs (CSetHeader k v)) as [R1 R2]. fold w in H2, R1, R2.
  destruct (started cs) eqn:Es; [|elim Ho; now rewrite H2].
  destruct (xml_call ord w (CSetHeader k v)) as [w' r]. cbn [fst snd] in *.
  destruct (closed cs); [exists EClosed|exists EStarted]; rewrite (R2 _ R1), R1; reflexivity.
Qed.
Print Assumptions C58_set_header_partial.

Example C58_ex : out (fst (run_calls (xml_call (fun l => l)) (new_writer None) [CWrite ex_way])) <> [].
Proof. discriminate. Qed.

(** The writers see an Arc or Rc object only through getters, which the view
    preserves. *)
Theorem view_getters : forall o,
  s_type (view o) = a_type o /\ s_meta (view o) = a_meta o /\ s_tags (view o) = a_tags o
  /\ (forall n, o = ANode n -> s_untagged (view o) = a_untagged o
        /\ opt_map sn_latlon (into_node (view o)) = Some (an_latlon n))
  /\ (forall w, o = AWay w -> opt_map sw_nodes (into_way (view o)) = Some (aw_nodes w))
  /\ (forall r, o = ARel r -> opt_map sr_members (into_relation (view o)) = Some (ar_members r)).
Proof.
  intros [n|w|r]; repeat split; intros; try discriminate;
    match goal with H : _ = _ |- _ => injection H as <- end; try reflexivity.
  unfold a_untagged, s_untagged, s_num_tags. cbn. destruct (an_tags n) as [[|]|]; reflexivity.
Qed.
Print Assumptions view_getters.
