(** The XML and OSC writers on a sink that keeps the contract of write_all (proofs
    only). *)
From Coq Require Import String ZArith List Bool Lia.
From Coq Require Import ZifyBool ZifyNat.
From Verif Require Import Base Ints Timestamp Obj Coord Utf8 XmlWrite SpecXml SpecWriter XmlWriteFacts XmlWriteIo SpecSink.
Import ListNotations.
Open Scope Z_scope.

Section Track.
Variable S : Type.
Variable got : S -> bytes.
Variable wa : bytes -> S -> S * bool.
Variable pieces : str -> list str.
Hypothesis Hwa : contract got wa.
Hypothesis Hp : forall t, concat (pieces t) = t.

(** A computation follows the same computation on a sink that takes everything: same
    bytes and result, or a proper part of the bytes and the I/O error. *)
Definition follows {A} (g : g_wm S A) (m : wm A) : Prop :=
  exists t r, (forall o, m (Sink o None) = (Sink (o ++ t) None, r)) /\
  forall s s' x, g s = (s', x) ->
  (got s' = got s ++ t /\ x = r) \/
  (exists p q, t = p ++ q /\ q <> [] /\ got s' = got s ++ p /\ x = WErr EIo).

Lemma f_ret {A} (a : A) : follows (g_wret S a) (wret a).
Proof. exists [], (WOk a). split; [intros o; unfold wret; now rewrite app_nil_r|]. intros s s' x [= <- <-]. left. now rewrite app_nil_r. Qed.
Lemma f_panic {A} : follows (@g_wpanic S A) (@wpanic A).
Proof. exists [], WPanic. split; [intros o; unfold wpanic; now rewrite app_nil_r|]. intros s s' x [= <- <-]. left. now rewrite app_nil_r. Qed.
Lemma f_bind {A B} (g : g_wm S A) m (k : A -> g_wm S B) k' : follows g m -> (forall a, follows (k a) (k' a)) -> follows (g_wbind S g k) (wbind m k').
Proof.
  intros (t1 & r1 & M1 & G1) Hk. destruct r1 as [a|e|].
  - destruct (Hk a) as (t2 & r2 & M2 & G2). exists (t1 ++ t2), r2. split.
    + intros o. unfold wbind. rewrite M1, M2. now rewrite app_assoc.
    + intros s s' x E. unfold g_wbind in E. destruct (g s) as [s1 x1] eqn:E1. destruct (G1 _ _ _ E1) as [(D1 & ->)|(p & q & -> & Hq & D1 & ->)].
      * destruct (G2 _ _ _ E) as [(D2 & ->)|(p & q & -> & Hq & D2 & ->)].
        -- left. rewrite D2, D1, app_assoc. now split.
        -- right. exists (t1 ++ p), q. rewrite D2, D1, !app_assoc. now repeat split.
      * injection E as <- <-. right. exists p, (q ++ t2). rewrite <- app_assoc. repeat split; try assumption. destruct q; [congruence|discriminate].
  - exists t1, (WErr e). split; [intros o; unfold wbind; now rewrite M1|]. intros s s' x E. unfold g_wbind in E. destruct (g s) as [s1 x1] eqn:E1.
    destruct (G1 _ _ _ E1) as [(D1 & ->)|(p & q & -> & Hq & D1 & ->)]; injection E as <- <-; [left; now split|right; now exists p, q].
  - exists t1, WPanic. split; [intros o; unfold wbind; now rewrite M1|]. intros s s' x E. unfold g_wbind in E. destruct (g s) as [s1 x1] eqn:E1.
    destruct (G1 _ _ _ E1) as [(D1 & ->)|(p & q & -> & Hq & D1 & ->)]; injection E as <- <-; [left; now split|right; now exists p, q].
Qed.
Lemma f_for {A} (l : list A) f f' : (forall a, follows (f a) (f' a)) -> follows (g_wfor S l f) (wfor l f').
Proof. intros H. induction l as [|a l IH]; cbn [g_wfor wfor]; [apply f_ret|]. apply f_bind; auto. Qed.
Lemma f_opt {A} (o : option A) f f' : (forall a, follows (f a) (f' a)) -> follows (g_wopt S o f) (wopt o f').
Proof. intros H. destruct o; cbn [g_wopt wopt]; [apply H|apply f_ret]. Qed.
Lemma f_write b : follows (g_write_all S wa b) (write_all b).
Proof.
  exists b, (WOk tt). split; [reflexivity|]. intros s s' x E. unfold g_write_all in E. destruct (wa b s) as [s1 ok] eqn:W. injection E as -> <-.
  pose proof (Hwa _ _ _ _ W) as C. destruct ok; [left; now split|]. destruct C as (p & q & -> & Hq & D). right. now exists p, q.
Qed.
Lemma f_emit t : follows (g_emit S wa pieces t) (emit t).
Proof.
  assert (F : follows (g_emit S wa pieces t) (wfor (pieces t) (fun p => write_all (utf8 p)))) by (apply f_for; intros p; apply f_write).
  destruct F as (t' & r & M & G). exists t', r. split; [|exact G].
  assert (W : forall l o, wfor l (fun p => write_all (utf8 p)) (Sink o None) = (Sink (o ++ utf8 (concat l)) None, WOk tt)).
  { induction l as [|p l IH]; intros o; cbn [wfor concat]; [unfold wret; cbn; now rewrite app_nil_r|].
    unfold wbind, write_all at 1. cbn [s_cap s_out]. rewrite IH, utf8_app, app_assoc. reflexivity. }
  intros o. specialize (M o). rewrite W, Hp in M. rewrite <- M. reflexivity.
Qed.
Lemma f_escaped s : follows (g_write_xml_escaped S wa pieces s) (write_xml_escaped s).
Proof.
  apply f_for. intros c. destruct (c =? 38); [apply f_emit|]. destruct (c =? 34); [apply f_emit|]. destruct (c =? 39); [apply f_emit|].
  destruct (c =? 60); [apply f_emit|]. destruct (c =? 62); apply f_emit.
Qed.

Ltac f_step := first [apply f_emit | apply f_escaped | apply f_panic | apply f_ret | (apply f_bind; [|intros ?]) | (apply f_opt; intros ?) | (apply f_for; intros ?)].
Lemma f_body o : follows (g_xml_write_body S wa pieces o) (xml_write_body o).
Proof.
  unfold g_xml_write_body, xml_write_body.
  repeat first [f_step | (match goal with
    | |- follows (match m_version ?x with _ => _ end) _ => destruct (m_version x)
    | |- follows (if ?b then _ else _) _ => destruct b
    | |- follows (match ?x with (_, _) => _ end) _ => destruct x
    | |- follows (match ?x with [] => _ | _ => _ end) _ => destruct x
    end)].
Qed.
Lemma f_osc_body o : follows (g_osc_write_body S wa pieces o) (osc_write_body o).
Proof. exact (f_body o). Qed.

(** [gsem g t r]: [g] appends [t] and returns [r], or appends a proper part of [t] and
    returns the I/O error. *)
Definition gsem {A} (g : g_wm S A) (t : bytes) (r : wres A) : Prop :=
  forall s s' x, g s = (s', x) ->
  (got s' = got s ++ t /\ x = r) \/
  (exists p q, t = p ++ q /\ q <> [] /\ got s' = got s ++ p /\ x = WErr EIo).

Lemma gsem_of {A} (g : g_wm S A) m t r : follows g m -> sem m t r -> gsem g t r.
Proof.
  intros (t' & r' & M & G) H. specialize (M []). rewrite H in M. cbn in M. injection M as <- <-. exact G.
Qed.

(** One call, from state [st] and headers [h]: text, next state, next headers, result;
    or a proper part [p] of the text.  The writer then counts as started only if the
    opening [u], in front of the text on a fresh writer, is in [p]. *)
Definition gwsem (f : g_writer S -> g_writer S * wres unit) st h (u t : bytes) st' h' r : Prop :=
  forall s w' x, f (GWriter S s h st) = (w', x) ->
  (exists s', w' = GWriter S s' h' st' /\ got s' = got s ++ t /\ x = r) \/
  (exists s' st'' p q, w' = GWriter S s' h st'' /\ t = p ++ q /\ q <> [] /\ got s' = got s ++ p /\ x = WErr EIo /\
     ((st <> Initial /\ st'' = st) \/
      (st = Initial /\ st'' = Initial /\ exists b, b <> [] /\ u = p ++ b) \/
      (st = Initial /\ st'' = WritingObjects /\ exists b, p = u ++ b))).

Lemma gwsem_nil f st h u st' h' r :
  (forall s, f (GWriter S s h st) = (GWriter S s h' st', r)) -> gwsem f st h u [] st' h' r.
Proof. intros H s w' x E. rewrite H in E. injection E as <- <-. left. exists s. now rewrite app_nil_r. Qed.

Lemma xml_header_g ord h :
  gwsem (g_xml_ensure_header S wa pieces ord) Initial h (utf8 (xml_opening (ord h))) (utf8 (xml_opening (ord h))) WritingObjects h (WOk tt).
Proof.
  intros s w' x E. unfold g_xml_ensure_header in E. cbn [g_w_state g_w_headers g_w_sink] in E.
  pose proof (sem_xml_header (ord h)) as H.
  match type of H with sem ?m' _ _ => match type of E with context [match ?m s with _ => _ end] => assert (F : follows m m') end end.
  { repeat f_step. destruct a1. repeat f_step. }
  pose proof (gsem_of _ _ _ _ F H s) as G.
  match type of E with context [match ?m s with _ => _ end] => destruct (m s) as [s1 x1] end.
  destruct (G _ _ eq_refl) as [(D & ->)|(p & q & T & Hq & D & ->)].
  - injection E as <- <-. left. now exists s1.
  - injection E as <- <-. right. exists s1, Initial, p, q. repeat split; try easy. right; left. repeat split. now exists q.
Qed.

Lemma osc_header_g h :
  gwsem (g_osc_ensure_header S wa pieces) Initial h (utf8 osc_opening) (utf8 osc_opening) WritingObjects h (WOk tt).
Proof.
  intros s w' x E. unfold g_osc_ensure_header in E. cbn [g_w_state g_w_headers g_w_sink] in E.
  pose proof sem_osc_header as H.
  match type of H with sem ?m' _ _ => match type of E with context [match ?m s with _ => _ end] => assert (F : follows m m') end end.
  { repeat f_step. }
  pose proof (gsem_of _ _ _ _ F H s) as G.
  match type of E with context [match ?m s with _ => _ end] => destruct (m s) as [s1 x1] end.
  destruct (G _ _ eq_refl) as [(D & ->)|(p & q & T & Hq & D & ->)].
  - injection E as <- <-. left. now exists s1.
  - injection E as <- <-. right. exists s1, Initial, p, q. repeat split; try easy. right; left. repeat split. now exists q.
Qed.

(** The opening, then the rest. *)
Lemma gwsem_seq f g k h u t2 st2 r :
  gwsem f Initial h u u WritingObjects h (WOk tt) -> gwsem g WritingObjects h [] t2 st2 h r ->
  (forall w, g_w_state S w = Initial -> k w = match f w with (w1, WOk _) => g w1 | (w1, x) => (w1, x) end) ->
  gwsem k Initial h u (u ++ t2) st2 h r.
Proof.
  intros F G Hk s w' x E. rewrite Hk in E by easy. destruct (f (GWriter S s h Initial)) as [w1 x1] eqn:E1.
  destruct (F _ _ _ E1) as [(s1 & -> & D1 & ->)|(s1 & st1 & p & q & -> & T & Hq & D1 & -> & St)].
  - destruct (G _ _ _ E) as [(s2 & -> & D2 & ->)|(s2 & st3 & p & q & -> & T & Hq & D2 & -> & St)].
    + left. exists s2. rewrite D2, D1, app_assoc. now repeat split.
    + right. exists s2, st3, (u ++ p), q. rewrite T, D2, D1, !app_assoc. repeat split; try easy. right; right.
      repeat split; [|now exists p]. destruct St as [[_ ->]|[[[=] _]|[[=] _]]]. easy.
  - injection E as <- <-. right. exists s1, st1, p, (q ++ t2). rewrite T, <- app_assoc. repeat split; try easy.
    + destruct q; [congruence|discriminate].
    + destruct St as [[[] _]|[(_ & -> & _)|(_ & -> & b & ->)]]; [easy| |].
      * right; left. repeat split. now exists q.
      * exfalso. rewrite T in *. apply (f_equal (@length _)) in T. rewrite !app_length in T. destruct q; [congruence|cbn in T; lia].
Qed.

Lemma body_g o h st u : st <> Initial ->
  gwsem (fun w1 => match g_xml_write_body S wa pieces o (g_w_sink S w1) with
    | (s, r) => (GWriter S s (g_w_headers S w1) (g_w_state S w1), r) end) st h u (utf8 (write_text o)) st h (write_res o).
Proof.
  intros Hst s w' x E. cbn [g_w_sink g_w_headers g_w_state] in E.
  destruct (g_xml_write_body S wa pieces o s) as [s1 x1] eqn:E1. injection E as <- <-.
  destruct (gsem_of _ _ _ _ (f_body o) (sem_body o) _ _ _ E1) as [(D & ->)|(p & q & T & Hq & D & ->)].
  - left. now exists s1.
  - right. exists s1, st, p, q. repeat split; try easy. now left.
Qed.

Lemma footer_g m t h st u : st <> Initial -> gsem m t (WOk tt) ->
  gwsem (fun w1 => match m (g_w_sink S w1) with
    | (s, WOk _) => (GWriter S s (g_w_headers S w1) Closed, WOk tt)
    | (s, r) => (GWriter S s (g_w_headers S w1) (g_w_state S w1), r) end) st h u t Closed h (WOk tt).
Proof.
  intros Hst G s w' x E. cbn [g_w_sink g_w_headers g_w_state] in E. destruct (m s) as [s1 x1] eqn:E1.
  destruct (G _ _ _ E1) as [(D & ->)|(p & q & T & Hq & D & ->)]; injection E as <- <-.
  - left. now exists s1.
  - right. exists s1, st, p, q. repeat split; try easy. now left.
Qed.

Definition grefines (opening : list (str * str) -> str) (f : g_writer S -> call -> g_writer S * wres unit)
    (step : call -> wstate -> list (str * str) -> str * wstate * list (str * str) * wres unit) : Prop :=
  forall c st h, let '(t, st', h', r) := step c st h in
    gwsem (fun w => f w c) st h (utf8 (opening h)) (utf8 t) st' h' r.

Lemma xml_closing_g : gsem (g_emit S wa pieces (nl ++ lit "</osm>")) (utf8 xml_closing) (WOk tt).
Proof. eapply gsem_of; [apply f_emit|apply sem_emit]. Qed.
Lemma osc_closing_g : gsem (g_wbind S (g_emit S wa pieces (nl ++ lit "</modify>")) (fun _ => g_emit S wa pieces (nl ++ lit "</osmChange>"))) (utf8 osc_closing) (WOk tt).
Proof. eapply gsem_of; [|apply sem_osc_footer]. repeat f_step. Qed.

Lemma xml_grefines ord : grefines (fun h => xml_opening (ord h)) (g_xml_call S wa pieces ord) (xml_step ord).
Proof.
  intros c st h. destruct c as [k v|o|], st; cbn [xml_step g_xml_call].
  1-3: apply gwsem_nil; reflexivity.
  - rewrite utf8_app. eapply gwsem_seq; [apply xml_header_g|apply body_g; discriminate|].
    intros w Hw. unfold g_xml_write_obj. rewrite Hw. now destruct (g_xml_ensure_header S wa pieces ord w) as [w1 [| |]].
  - exact (body_g o h WritingObjects _ ltac:(discriminate)).
  - apply gwsem_nil; reflexivity.
  - rewrite utf8_app. eapply gwsem_seq; [apply xml_header_g|apply (footer_g _ _ h WritingObjects [] ltac:(discriminate) xml_closing_g)|].
    intros w Hw. unfold g_xml_close. now destruct (g_xml_ensure_header S wa pieces ord w) as [w1 [| |]].
  - exact (footer_g _ _ h WritingObjects _ ltac:(discriminate) xml_closing_g).
  - exact (footer_g _ _ h Closed _ ltac:(discriminate) xml_closing_g).
Qed.

Lemma osc_grefines : grefines (fun _ => osc_opening) (g_osc_call S wa pieces) osc_step.
Proof.
  intros c st h. destruct c as [k v|o|], st; cbn [osc_step g_osc_call].
  1-3: apply gwsem_nil; reflexivity.
  - rewrite utf8_app. eapply gwsem_seq; [apply osc_header_g|apply body_g; discriminate|].
    intros w Hw. unfold g_osc_write_obj. rewrite Hw. now destruct (g_osc_ensure_header S wa pieces w) as [w1 [| |]].
  - exact (body_g o h WritingObjects _ ltac:(discriminate)).
  - apply gwsem_nil; reflexivity.
  - rewrite utf8_app.
    eapply (gwsem_seq _ (fun w1 => match g_w_state S w1 with
      | Closed => (w1, WOk tt)
      | _ => match (g_wbind S (g_emit S wa pieces (nl ++ lit "</modify>")) (fun _ => g_emit S wa pieces (nl ++ lit "</osmChange>"))) (g_w_sink S w1) with
          | (s, WOk _) => (GWriter S s (g_w_headers S w1) Closed, WOk tt)
          | (s, r) => (GWriter S s (g_w_headers S w1) (g_w_state S w1), r)
          end
      end)); [apply osc_header_g| |].
    + exact (footer_g _ _ h WritingObjects [] ltac:(discriminate) osc_closing_g).
    + intros w Hw. unfold g_osc_close. now destruct (g_osc_ensure_header S wa pieces w) as [w1 [| |]].
  - exact (footer_g _ _ h WritingObjects _ ltac:(discriminate) osc_closing_g).
  - apply gwsem_nil; reflexivity.
Qed.

(** Histories without an I/O error. *)
Lemma g_run_ok opening f step : grefines opening f step -> forall cs st h s w rs,
  g_run_calls S f (GWriter S s h st) cs = (w, rs) -> ~ In (WErr EIo) rs ->
  let '(t, st', h', rs') := steps step cs st h in
  rs = rs' /\ exists s', w = GWriter S s' h' st' /\ got s' = got s ++ utf8 t.
Proof.
  intros R. induction cs as [|c cs IH]; intros st h s w rs E N; cbn [g_run_calls steps] in *.
  - injection E as <- <-. split; [easy|]. exists s. cbn. now rewrite app_nil_r.
  - pose proof (R c st h) as Hc. destruct (step c st h) as [[[t st1] h1] x].
    destruct (f (GWriter S s h st) c) as [w1 x1] eqn:E1. destruct (g_run_calls S f w1 cs) as [w2 xs] eqn:E2.
    injection E as <- <-. destruct (Hc _ _ _ E1) as [(s1 & -> & D1 & ->)|(s1 & st2 & p & q & -> & T & Hq & D1 & -> & _)].
    + specialize (IH st1 h1 s1 w2 xs E2). destruct (steps step cs st1 h1) as [[[t' st'] h'] rs'].
      destruct IH as (-> & s2 & -> & D2); [intros I; apply N; now right|]. split; [easy|]. exists s2. now rewrite D2, D1, utf8_app, app_assoc.
    + elim N. now left.
Qed.

(** Any history: each call adds its text, or a proper part of it and fails. *)
Lemma g_run_parts opening f step : grefines opening f step -> forall cs st h s w rs,
  g_run_calls S f (GWriter S s h st) cs = (w, rs) ->
  exists parts, got (g_w_sink S w) = got s ++ concat parts /\ length parts = length cs /\
  forall i c r p, nth_error cs i = Some c -> nth_error rs i = Some r -> nth_error parts i = Some p ->
  exists st0 h0, let '(t, _, _, x) := step c st0 h0 in
  (r = x /\ p = utf8 t) \/ (r = WErr EIo /\ exists q, q <> [] /\ utf8 t = p ++ q).
Proof.
  intros R. induction cs as [|c cs IH]; intros st h s w rs E; cbn [g_run_calls] in *.
  - injection E as <- <-. exists []. cbn. rewrite app_nil_r. repeat split. intros [|i]; discriminate.
  - destruct (f (GWriter S s h st) c) as [w1 x1] eqn:E1. destruct (g_run_calls S f w1 cs) as [w2 xs] eqn:E2.
    injection E as <- <-. pose proof (R c st h) as Hc.
    assert (H1 : exists p s1 st1 h1, w1 = GWriter S s1 h1 st1 /\ got s1 = got s ++ p /\
      let '(t, _, _, x) := step c st h in (x1 = x /\ p = utf8 t) \/ (x1 = WErr EIo /\ exists q, q <> [] /\ utf8 t = p ++ q)).
    { destruct (step c st h) as [[[t st1] h1] x].
      destruct (Hc _ _ _ E1) as [(s1 & -> & D1 & ->)|(s1 & st2 & p & q & -> & T & Hq & D1 & -> & _)].
      - exists (utf8 t), s1, st1, h1. repeat split; try easy. now left.
      - exists p, s1, st2, h. repeat split; try easy. right. split; [easy|]. now exists q. }
    destruct H1 as (p & s1 & st1 & h1 & -> & D1 & Hp1).
    destruct (IH _ _ _ _ _ E2) as (parts & D2 & L & Hi). exists (p :: parts).
    split; [cbn [concat]; now rewrite D2, D1, app_assoc|]. split; [cbn; now rewrite L|].
    intros [|i] c0 r0 p0; cbn [nth_error]; [intros [= <-] [= <-] [= <-]; exists st, h; exact Hp1|apply Hi].
Qed.
End Track.
