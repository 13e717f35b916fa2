(** C78, C79: the XML and OSC writers on sinks that take their bytes in pieces or fail. *)
From Coq Require Import String ZArith List Bool Lia Permutation.
From Coq Require Import ZifyBool ZifyNat.
From Verif Require Import Base Ints Timestamp Obj Coord Utf8 XmlWrite SpecXml SpecWriter XmlWriteFacts XmlWriteIo SpecSink XmlIoFacts PropsWriter.
Import ListNotations.
Open Scope Z_scope.

(** ** C78 *)

(** Every sink whose write_all is std's loop over a write that takes some of the bytes,
    is interrupted or fails, keeps the contract. *)
Theorem C78_std_loop : contract ps_got plan_write_all.
Proof.
  intros b [g pl] s' ok. unfold plan_write_all. cbn [ps_plan ps_got]. revert g b.
  induction pl as [|a pl IH]; intros g b; destruct b as [|x b]; cbn [write_loop].
  - intros [= <- <-]. cbn. now rewrite app_nil_r.
  - intros [= <- <-]. reflexivity.
  - intros [= <- <-]. cbn. now rewrite app_nil_r.
  - destruct a as [[|n]| |].
    + intros [= <- <-]. exists [], (x :: b). cbn. now rewrite app_nil_r.
    + intros E. specialize (IH _ _ E). destruct ok.
      * rewrite IH. rewrite <- app_assoc. now rewrite firstn_skipn.
      * destruct IH as (p & q & T & Hq & D). exists (firstn (S n) (x :: b) ++ p), q.
        rewrite D, <- !app_assoc. repeat split; try easy. rewrite <- T. symmetry. apply (firstn_skipn (S n)).
    + apply IH.
    + intros [= <- <-]. exists [], (x :: b). cbn. now rewrite app_nil_r.
Qed.
Print Assumptions C78_std_loop.

(** If no call reports an I/O error, the sink has received exactly what a sink that takes
    everything at once receives, the calls returned the same, and the writer is open or
    closed as there. *)
Definition delivers_all (S : Type) (f : writer -> call -> writer * wres unit)
    (g : g_writer S -> call -> g_writer S * wres unit) (got : S -> bytes) : Prop :=
  forall s0, got s0 = [] -> forall cs,
  let '(w, rs) := g_run_calls S g (g_new_writer S s0) cs in
  let '(w', rs') := run_calls f (new_writer None) cs in
  ~ In (WErr EIo) rs -> got (g_w_sink S w) = out w' /\ rs = rs' /\ g_is_open S w = is_open w'.

Lemma grefines_delivers S got opening f g step : refines f step -> grefines S got opening g step -> delivers_all S f g got.
Proof.
  intros R G s0 H0 cs. destruct (g_run_calls S g (g_new_writer S s0) cs) as [w rs] eqn:E.
  pose proof (new_run f step R cs) as H. pose proof (g_run_ok S got opening g step G cs Initial [] s0 w rs E) as K.
  destruct (steps step cs Initial []) as [[[t st] h] rs']. rewrite H. intros N. destruct (K N) as (-> & s' & -> & D).
  cbn [g_w_sink]. rewrite D, H0. repeat split.
Qed.

Theorem C78_xml : forall S (got : S -> bytes) wa, contract got wa ->
  forall pieces, (forall t, concat (pieces t) = t) -> forall ord,
  delivers_all S (xml_call ord) (g_xml_call S wa pieces ord) got.
Proof.
  intros S got wa Hw pieces Hp ord. eapply grefines_delivers; [apply xml_refines|]. now apply xml_grefines.
Qed.
Print Assumptions C78_xml.

Theorem C78_osc : forall S (got : S -> bytes) wa, contract got wa ->
  forall pieces, (forall t, concat (pieces t) = t) ->
  delivers_all S osc_call (g_osc_call S wa pieces) got.
Proof.
  intros S got wa Hw pieces Hp. eapply grefines_delivers; [apply osc_refines|]. now apply osc_grefines.
Qed.
Print Assumptions C78_osc.

(** Up to and including the first call that reports an I/O error, the sink has received
    a proper part of what the other sink receives. *)
Definition stops_inside (S : Type) (f : writer -> call -> writer * wres unit)
    (g : g_writer S -> call -> g_writer S * wres unit) (got : S -> bytes) : Prop :=
  forall s0, got s0 = [] -> forall cs c w rs w1,
  g_run_calls S g (g_new_writer S s0) cs = (w, rs) -> ~ In (WErr EIo) rs -> g w c = (w1, WErr EIo) ->
  exists p q, q <> [] /\ got (g_w_sink S w1) = out (fst (run_calls f (new_writer None) cs)) ++ p
  /\ out (fst (run_calls f (new_writer None) (cs ++ [c]))) = got (g_w_sink S w1) ++ q.

Lemma g_steps_app step cs c st h : let '(t, st1, h1, rs) := steps step cs st h in
  let '(t', st2, h2, x) := step c st1 h1 in steps step (cs ++ [c]) st h = (t ++ t', st2, h2, rs ++ [x]).
Proof.
  revert st h. induction cs as [|d cs IH]; intros st h; cbn [steps app].
  - destruct (step c st h) as [[[t st1] h1] x]. now rewrite app_nil_r.
  - destruct (step d st h) as [[[t st1] h1] x]. specialize (IH st1 h1).
    destruct (steps step cs st1 h1) as [[[t2 st2] h2] rs]. destruct (step c st2 h2) as [[[t3 st3] h3] x3]. rewrite IH. now rewrite app_assoc.
Qed.

(** No call on the sink that takes everything returns the I/O error. *)
Definition never_io (step : call -> wstate -> list (str * str) -> str * wstate * list (str * str) * wres unit) : Prop :=
  forall c st h, let '(_, _, _, r) := step c st h in r <> WErr EIo.
Lemma never_io_xml ord : never_io (xml_step ord).
Proof. intros [k v|o|] [] h; cbn; try discriminate; apply write_res_neq. Qed.
Lemma never_io_osc : never_io osc_step.
Proof. intros [k v|o|] [] h; cbn; try discriminate; apply write_res_neq. Qed.

Lemma grefines_stops S got opening f g step : refines f step -> never_io step -> grefines S got opening g step -> stops_inside S f g got.
Proof.
  intros R N G s0 H0 cs c w rs w1 E Hn Ec.
  pose proof (g_run_ok S got opening g step G cs Initial [] s0 w rs E) as K.
  pose proof (new_run f step R cs) as H1. pose proof (new_run f step R (cs ++ [c])) as H2.
  pose proof (g_steps_app step cs c Initial []) as A.
  destruct (steps step cs Initial []) as [[[t st] h] rs']. destruct (K Hn) as (_ & s & -> & D).
  pose proof (N c st h) as Nc. pose proof (G c st h) as Gc. destruct (step c st h) as [[[t' st'] h'] x]. rewrite A in H2. rewrite H1, H2.
  destruct (Gc _ _ _ Ec) as [(s1 & -> & D1 & Hx)|(s1 & st2 & p & q & -> & T & Hq & D1 & _)]; [congruence|].
  exists p, q. cbn [fst out w_sink s_out g_w_sink]. rewrite D1, D, H0, utf8_app, T. cbn [app]. now rewrite app_assoc.
Qed.

Theorem C78_xml_first_error : forall S (got : S -> bytes) wa, contract got wa ->
  forall pieces, (forall t, concat (pieces t) = t) -> forall ord,
  stops_inside S (xml_call ord) (g_xml_call S wa pieces ord) got.
Proof.
  intros S got wa Hw pieces Hp ord. eapply grefines_stops; [apply xml_refines|apply never_io_xml|]. now apply xml_grefines.
Qed.
Print Assumptions C78_xml_first_error.

Theorem C78_osc_first_error : forall S (got : S -> bytes) wa, contract got wa ->
  forall pieces, (forall t, concat (pieces t) = t) ->
  stops_inside S osc_call (g_osc_call S wa pieces) got.
Proof.
  intros S got wa Hw pieces Hp. eapply grefines_stops; [apply osc_refines|apply never_io_osc|]. now apply osc_grefines.
Qed.
Print Assumptions C78_osc_first_error.

(** A sink that takes a byte, is interrupted twice, takes seven bytes, two, ... and the
    text delivered character by character. *)
Example C78_ex :
  let s0 := PlanSink [] [Takes 1; Interrupted; Interrupted; Takes 7; Takes 2; Interrupted; Takes 40; Takes 3] in
  let '(w, rs) := g_run_calls plan_sink (g_xml_call plan_sink plan_write_all (map (fun c => [c])) (fun l => l))
                    (g_new_writer plan_sink s0) [CWrite ex_node; CWrite ex_way; CClose] in
  rs = [WOk tt; WOk tt; WOk tt] /\ ps_plan (g_w_sink plan_sink w) = []
  /\ ps_got (g_w_sink plan_sink w) = utf8 (xml_document [] [ex_node; ex_way]).
Proof. vm_compute. repeat split. Qed.

(** ** C79: false of the code *)

(** A sink fails once and works from then on.  The caller repeats the call that failed;
    it and the close succeed.  The output is not the document. *)
Definition repeats (S : Type) (g : g_writer S -> call -> g_writer S * wres unit) (got : S -> bytes)
    (document : list sobj -> str) : Prop :=
  forall s0 o, got s0 = [] -> m_version (s_meta o) <> None ->
  let '(w, rs) := g_run_calls S g (g_new_writer S s0) [CWrite o; CWrite o; CClose] in
  rs = [WErr EIo; WOk tt; WOk tt] -> got (g_w_sink S w) = utf8 (document [o]).

Theorem C79_xml_refuted :
  ~ repeats plan_sink (g_xml_call plan_sink plan_write_all (fun t => [t]) (fun l => l)) ps_got (xml_document []).
Proof.
  intros H. specialize (H (PlanSink [] [Takes 1000; Takes 1000; Takes 1000; Takes 3; Fails]) ex_node eq_refl).
  assert (E : m_version (s_meta ex_node) <> None) by discriminate. specialize (H E).
  revert H. vm_compute. intros H. specialize (H eq_refl). discriminate H.
Qed.
Print Assumptions C79_xml_refuted.

Theorem C79_osc_refuted :
  ~ repeats plan_sink (g_osc_call plan_sink plan_write_all (fun t => [t])) ps_got osc_document.
Proof.
  intros H. specialize (H (PlanSink [] [Takes 3; Fails]) ex_node eq_refl).
  assert (E : m_version (s_meta ex_node) <> None) by discriminate. specialize (H E).
  revert H. vm_compute. intros H. specialize (H eq_refl). discriminate H.
Qed.
Print Assumptions C79_osc_refuted.

(** When it does work.  After calls that report no I/O error, a write fails, having
    added [p] to the sink, and the same write succeeds.  What the sink has then is what
    the calls with that one write give exactly when [p] is empty or is the whole opening
    of the document. *)
Definition repeat_law (S : Type) (f : writer -> call -> writer * wres unit)
    (g : g_writer S -> call -> g_writer S * wres unit) (got : S -> bytes)
    (opening : list call -> str -> Prop) : Prop :=
  forall s0 cs o w rs w1 w2 p, got s0 = [] ->
  g_run_calls S g (g_new_writer S s0) cs = (w, rs) -> ~ In (WErr EIo) rs ->
  g w (CWrite o) = (w1, WErr EIo) -> got (g_w_sink S w1) = got (g_w_sink S w) ++ p ->
  g w1 (CWrite o) = (w2, WOk tt) ->
  exists u, opening cs u /\
  (got (g_w_sink S w2) = out (fst (run_calls f (new_writer None) (cs ++ [CWrite o])))
   <-> p = [] \/ (started cs = false /\ p = utf8 u)).

(** The shape the two writers have in common. *)
Definition shaped (opening : list (str * str) -> str) (step : call -> wstate -> list (str * str) -> str * wstate * list (str * str) * wres unit) : Prop :=
  forall o h, step (CWrite o) Initial h = (opening h ++ write_text o, WritingObjects, h, write_res o)
  /\ step (CWrite o) WritingObjects h = (write_text o, WritingObjects, h, write_res o)
  /\ step (CWrite o) Closed h = ([], Closed, h, WErr EClosed).

Lemma grefines_repeat S got opening f g step op : refines f step -> grefines S got opening g step -> shaped opening step ->
  (forall cs, let '(t, st, h, rs) := steps step cs Initial [] in
     st = (if closed cs then Closed else if started cs then WritingObjects else Initial) /\ op cs (opening h)) ->
  repeat_law S f g got op.
Proof.
  intros R G Sh St s0 cs o w rs w1 w2 p H0 E Hn E1 D1 E2.
  pose proof (g_run_ok S got opening g step G cs Initial [] s0 w rs E) as K.
  pose proof (new_run f step R (cs ++ [CWrite o])) as H2.
  pose proof (g_steps_app step cs (CWrite o) Initial []) as A. specialize (St cs).
  destruct (steps step cs Initial []) as [[[t st] h] rs']. destruct (K Hn) as (_ & s & -> & D). destruct St as (Hst & Hop).
  exists (opening h). split; [exact Hop|]. destruct (Sh o h) as (Si & Sw & Sc).
  pose proof (G (CWrite o) st h) as G1. cbn [g_w_sink] in D1.
  assert (Hcl : closed cs = true -> started cs = true).
  { unfold closed, started. intros Q. apply existsb_exists in Q as (c & I & Hc). apply existsb_exists. exists c. split; [easy|]. now destruct c. }
  destruct st; cbv beta in G1.
  - rewrite Si in G1, A. rewrite A in H2. rewrite H2. cbn [fst out w_sink s_out].
    assert (Hs : started cs = false) by (destruct (closed cs), (started cs); easy).
    destruct (G1 _ _ _ E1) as [(s1 & -> & _ & Hx)|(s1 & st2 & p' & q & -> & T & Hq & D' & _ & Q)]; [now elim (write_res_neq o EIo)|].
    cbn [g_w_sink] in D1. rewrite D' in D1. apply app_inv_head in D1. subst p'.
    destruct Q as [[[] _]|[(_ & -> & b & Hb & U)|(_ & -> & b & U)]]; [easy| |].
    + pose proof (G (CWrite o) Initial h) as G2. rewrite Si in G2. cbv beta in G2.
      destruct (G2 _ _ _ E2) as [(s2 & -> & D2 & Hx)|(s2 & st2 & p' & q' & -> & _ & _ & _ & [=] & _)].
      cbn [g_w_sink]. rewrite D2, D', D, H0, !utf8_app, <- !app_assoc. cbn [app]. split.
      * intros Q. left. apply app_inv_head in Q. apply (f_equal (@length _)) in Q. rewrite !app_length in Q. destruct p; [easy|cbn in Q; lia].
      * intros [-> |[_ ->]]; [reflexivity|]. exfalso. apply (f_equal (@length _)) in U. rewrite app_length in U. destruct b; [easy|cbn in U; lia].
    + pose proof (G (CWrite o) WritingObjects h) as G2. rewrite Sw in G2. cbv beta in G2.
      destruct (G2 _ _ _ E2) as [(s2 & -> & D2 & Hx)|(s2 & st2 & p' & q' & -> & _ & _ & _ & [=] & _)].
      cbn [g_w_sink]. rewrite D2, D', D, H0, !utf8_app, U, <- !app_assoc. cbn [app]. split.
      * intros Q. right. split; [easy|]. apply app_inv_head in Q. apply (f_equal (@length _)) in Q. rewrite !app_length in Q.
        destruct b; [now rewrite app_nil_r|cbn in Q; lia].
      * intros [Q|[_ Q]].
        -- apply app_eq_nil in Q as [-> ->]. reflexivity.
        -- rewrite <- (app_nil_r (utf8 (opening h))) in Q at 2. apply app_inv_head in Q. now subst b.
  - rewrite Sw in G1, A. rewrite A in H2. rewrite H2. cbn [fst out w_sink s_out].
    assert (Hs : started cs = true) by (destruct (closed cs), (started cs); easy).
    destruct (G1 _ _ _ E1) as [(s1 & -> & _ & Hx)|(s1 & st2 & p' & q & -> & T & Hq & D' & _ & Q)]; [now elim (write_res_neq o EIo)|].
    cbn [g_w_sink] in D1. rewrite D' in D1. apply app_inv_head in D1. subst p'.
    destruct Q as [[_ ->]|[([=] & _)|([=] & _)]].
    pose proof (G (CWrite o) WritingObjects h) as G2. rewrite Sw in G2. cbv beta in G2.
    destruct (G2 _ _ _ E2) as [(s2 & -> & D2 & Hx)|(s2 & st2 & p' & q' & -> & _ & _ & _ & [=] & _)].
    cbn [g_w_sink]. rewrite D2, D', D, H0, !utf8_app, <- !app_assoc. cbn [app]. rewrite Hs. split.
    + intros Q. left. apply app_inv_head in Q. apply (f_equal (@length _)) in Q. rewrite !app_length in Q. destruct p; [easy|cbn in Q; lia].
    + intros [-> |[[=] _]]. reflexivity.
  - rewrite Sc in G1.
    destruct (G1 _ _ _ E1) as [(s1 & -> & _ & [=])|(s1 & st2 & p' & q & -> & T & Hq & _)]. cbn in T. destruct p'; [|discriminate]. now destruct q.
Qed.

Theorem C79_xml_exact : forall S (got : S -> bytes) wa, contract got wa ->
  forall pieces, (forall t, concat (pieces t) = t) -> forall ord, (forall l, Permutation (ord l) l) ->
  repeat_law S (xml_call ord) (g_xml_call S wa pieces ord) got
    (fun cs u => exists hs, header_map hs (header_calls cs) /\ u = xml_opening hs).
Proof.
  intros S got wa Hw pieces Hp ord Hord.
  apply (grefines_repeat S got (fun h => xml_opening (ord h)) _ _ (xml_step ord)); [apply xml_refines|now apply xml_grefines|now intros o h|].
  intros cs. pose proof (steps_initial_xml ord cs []) as H. destruct (steps (xml_step ord) cs Initial []) as [[[t st] h] rs].
  destruct H as (_ & -> & ->). split; [reflexivity|]. eexists. split; [|reflexivity].
  eapply header_map_perm; [apply Hord|apply headers_of_spec].
Qed.
Print Assumptions C79_xml_exact.

Theorem C79_osc_exact : forall S (got : S -> bytes) wa, contract got wa ->
  forall pieces, (forall t, concat (pieces t) = t) ->
  repeat_law S osc_call (g_osc_call S wa pieces) got (fun cs u => u = osc_opening).
Proof.
  intros S got wa Hw pieces Hp.
  apply (grefines_repeat S got (fun h => osc_opening) _ _ osc_step); [apply osc_refines|now apply osc_grefines|now intros o h|].
  intros cs. pose proof (steps_initial_osc cs []) as H. destruct (steps osc_step cs Initial []) as [[[t st] h] rs].
  now destruct H as (_ & -> & ->).
Qed.
Print Assumptions C79_osc_exact.

(** Whatever the sink does, each call has added to it either the whole of its text, or a
    proper part of it and then it reported the I/O error; a refused call
    adds nothing, and so does a call that is [idle]. *)
Definition whole_or_error (S : Type) (g : g_writer S -> call -> g_writer S * wres unit) (got : S -> bytes)
    (opening : str -> Prop) (closing : str) (idle : call -> Prop) : Prop :=
  forall s0 cs w rs, g_run_calls S g (g_new_writer S s0) cs = (w, rs) ->
  exists parts, got (g_w_sink S w) = got s0 ++ concat parts /\ length parts = length cs /\
  forall i c r p, nth_error cs i = Some c -> nth_error rs i = Some r -> nth_error parts i = Some p ->
  match r with
  | WErr EIo => exists t q, call_text opening closing c t /\ q <> [] /\ utf8 t = p ++ q
  | WErr _ => p = []
  | _ => (idle c /\ p = []) \/ exists t, call_text opening closing c t /\ p = utf8 t
  end.

Lemma grefines_whole S got opening g step op closing idle : grefines S got opening g step ->
  (forall c st h, let '(t, _, _, r) := step c st h in
     match r with
     | WErr EIo => False
     | WErr _ => t = []
     | _ => (idle c /\ t = []) \/ call_text op closing c t
     end) -> whole_or_error S g got op closing idle.
Proof.
  intros G Sh s0 cs w rs E. destruct (g_run_parts S got opening g step G cs Initial [] s0 w rs E) as (parts & D & L & Hi).
  exists parts. repeat split; [exact D|exact L|]. intros i c r p Hc Hr Hp. destruct (Hi i c r p Hc Hr Hp) as (st & h & Q).
  specialize (Sh c st h). destruct (step c st h) as [[[t st'] h'] x]. destruct Q as [(-> & ->)|(-> & q & Hq & T)].
  - destruct x as [a|[]|]; [|easy| | |].
    + destruct Sh as [(I & ->)|C]; [left; now split|right; now exists t].
    + now rewrite Sh.
    + now rewrite Sh.
    + destruct Sh as [(I & ->)|C]; [left; now split|right; now exists t].
  - destruct t as [|a t].
    + cbn in T. destruct p; [|discriminate]. now destruct q.
    + destruct x as [u|[]|]; try easy.
      * destruct Sh as [(I & [=])|C]. now exists (a :: t), q.
      * destruct Sh as [(I & [=])|C]. now exists (a :: t), q.
Qed.

Theorem C79_xml_each_call : forall S (got : S -> bytes) wa, contract got wa ->
  forall pieces, (forall t, concat (pieces t) = t) -> forall ord,
  whole_or_error S (g_xml_call S wa pieces ord) got (fun u => exists hs, u = xml_opening hs) xml_closing (fun _ => False).
Proof.
  intros S got wa Hw pieces Hp ord. eapply grefines_whole; [now apply xml_grefines|].
  intros [k v|o|] [] h; cbn [xml_step]; unfold call_text; try easy; try (right; now left).
  - unfold write_res. destruct (m_version (s_meta o)); right; right; eexists; split; try reflexivity; now eexists.
  - unfold write_res. destruct (m_version (s_meta o)); right; now left.
  - right; right; eexists; split; try reflexivity; now eexists.
Qed.
Print Assumptions C79_xml_each_call.

Theorem C79_osc_each_call : forall S (got : S -> bytes) wa, contract got wa ->
  forall pieces, (forall t, concat (pieces t) = t) ->
  whole_or_error S (g_osc_call S wa pieces) got (fun u => u = osc_opening) osc_closing (fun c => c = CClose).
Proof.
  intros S got wa Hw pieces Hp. eapply grefines_whole; [now apply osc_grefines|].
  intros [k v|o|] [] h; cbn [osc_step]; unfold call_text; try easy; try (right; now left).
  - unfold write_res. destruct (m_version (s_meta o)); right; right; eexists; split; reflexivity.
  - unfold write_res. destruct (m_version (s_meta o)); right; now left.
  - right; right; eexists; split; reflexivity.
  - left. now split.
Qed.
Print Assumptions C79_osc_each_call.

Example C79_ex :
  let s0 := PlanSink [] [Takes 1000; Takes 1000; Takes 1000; Takes 3; Fails] in
  let '(w, rs) := g_run_calls plan_sink (g_xml_call plan_sink plan_write_all (fun t => [t]) (fun l => l))
                    (g_new_writer plan_sink s0) [CWrite ex_node; CWrite ex_node; CClose] in
  rs = [WErr EIo; WOk tt; WOk tt]
  /\ ps_got (g_w_sink plan_sink w) = utf8 (xml_opening [] ++ [10; 9] ++ lit "<" ++ obj_text ex_node ++ xml_closing).
Proof. vm_compute. split; reflexivity. Qed.

(** Here the repetition works: the sink failed right after the opening. *)
Example C79_ex_works :
  let s0 := PlanSink [] [Takes 1000; Takes 1000; Takes 1000; Fails] in
  let '(w, rs) := g_run_calls plan_sink (g_xml_call plan_sink plan_write_all (fun t => [t]) (fun l => l))
                    (g_new_writer plan_sink s0) [CWrite ex_node; CWrite ex_node; CClose] in
  rs = [WErr EIo; WOk tt; WOk tt]
  /\ ps_got (g_w_sink plan_sink w) = utf8 (xml_document [] [ex_node]).
Proof. vm_compute. split; reflexivity. Qed.
