(** C105: how a writer's life ends. *)
From Coq Require Import String ZArith List Bool Lia Permutation.
From Verif Require Import Base Ints Utf8 Obj XmlWrite SpecXml SpecWriter XmlWriteFacts PropsWriter WriterEnd.
Import ListNotations.
Open Scope Z_scope.

(** ** Specification *)

(** Does a sink with this capacity have room for these bytes, and what does it get of
    them? *)
Definition room (cap : option nat) (b : bytes) : bool :=
  match cap with None => true | Some n => Nat.leb (length b) n end.
Definition received (cap : option nat) (b : bytes) : bytes :=
  match cap with None => b | Some n => firstn n b end.

(** The objects from_iter gets to: all, or those up to the first without a version. *)
Definition versioned (o : sobj) : bool := match m_version (s_meta o) with Some _ => true | None => false end.
Fixpoint attempted (os : list sobj) : list sobj :=
  match os with
  | [] => []
  | o :: r => o :: if versioned o then attempted r else []
  end.

(** Dropping a writer after any calls, or ending it with into_inner: the sink gets all
    that the calls and one more close produce, as far as it has room; if that is not
    all, the drop panics, and into_inner, which panics anyway, aborts. *)
Definition ends_properly (f : writer -> call -> writer * wres unit) : Prop :=
  forall cs cap,
  let full := out (fst (run_calls f (new_writer None) (cs ++ [CClose]))) in
  let w := fst (run_calls f (new_writer cap) cs) in
  (exists s, drop_writer f w = (s, if room cap full then Quiet else Unwinds) /\ s_out s = received cap full) /\
  (exists s, writer_into_inner f w = (s, if room cap full then Unwinds else Aborts) /\ s_out s = received cap full).

(** from_iter of [os] when the writer frames objects with [op] and [cl]: it returns a
    writer that has written the whole document, exactly if every object has a version
    and the sink has room.  Otherwise the sink has what it takes of the objects up to
    the bad one (and that one's beginning) and the end of the document, and the call
    panics, with an abort if there was no room. *)
Definition from_iter_ends (f : writer -> call -> writer * wres unit) (op cl : str) : Prop :=
  forall cap os,
  let doc := utf8 (op ++ flat_map write_text (attempted os) ++ cl) in
  match from_iter_end f cap os with
  | inl w => forallb versioned os && room cap doc = true /\ out w = doc /\ is_open w = false
  | inr (s, e) => forallb versioned os && room cap doc = false /\ s_out s = received cap doc /\
                  e = if room cap doc then Unwinds else Aborts
  end.

(** ** Proof *)

Definition step_text (x : str * wstate * list (str * str) * wres unit) : str := fst (fst (fst x)).
Definition step_st (x : str * wstate * list (str * str) * wres unit) : wstate := snd (fst (fst x)).

(** In a state from which something is written, close writes something. *)
Record good_step (step : call -> wstate -> list (str * str) -> str * wstate * list (str * str) * wres unit)
    (live : wstate -> Prop) : Prop := {
  gs_from : forall c st h, utf8 (step_text (step c st h)) <> [] -> live st;
  gs_stay : forall c st h, live st -> utf8 (step_text (step c st h)) = [] -> live (step_st (step c st h));
  gs_writing : live Initial -> live WritingObjects;
  gs_close : forall st h, live st -> utf8 (step_text (step CClose st h)) <> [];
  gs_ok : forall st h, snd (step CClose st h) = WOk tt;
  gs_closed : forall st h, step_st (step CClose st h) = Closed }.

Lemma utf8_nonempty a b c : utf8 (a ++ (c :: b)) <> [].
Proof.
  rewrite utf8_app. destruct (utf8 a); [|discriminate]. cbn. unfold utf8_char.
  cbn. repeat destruct (_ <? _); discriminate.
Qed.

Lemma xml_good ord : good_step (xml_step ord) (fun _ => True).
Proof. constructor; auto; try (intros st h; destruct st; try reflexivity).
  all: intros _; cbn [xml_step step_text fst]; try discriminate; apply (utf8_nonempty _ (tl xml_closing)).
Qed.

Lemma osc_good : good_step osc_step (fun st => st <> Closed).
Proof.
  constructor.
  - intros c st h H ->. destruct c; now apply H.
  - intros c st h H E. destruct c, st; cbn in *; try easy.
  - discriminate.
  - intros st h H. destruct st; cbn [osc_step step_text fst]; [|discriminate|easy].
    apply (utf8_nonempty _ (tl osc_closing)).
  - intros st h. now destruct st.
  - intros st h. now destruct st.
Qed.

Section Run.
Variable f : writer -> call -> writer * wres unit.
Variable step : call -> wstate -> list (str * str) -> str * wstate * list (str * str) * wres unit.
Variable live : wstate -> Prop.
Hypothesis R : refines f step.
Hypothesis G : good_step step live.

Lemma run_fits : forall cs st h o n,
  let '(t, st', h', rs) := steps step cs st h in
  (length (utf8 t) <= n)%nat ->
  run_calls f (Writer (Sink o (Some n)) h st) cs
  = (Writer (Sink (o ++ utf8 t) (Some (n - length (utf8 t))%nat)) h' st', rs).
Proof.
  induction cs as [|c cs IH]; intros st h o n; cbn [steps run_calls].
  - intros _. cbn. now rewrite app_nil_r, Nat.sub_0_r.
  - pose proof (R c st h) as Hc. destruct (step c st h) as [[[t st1] h1] x]. destruct Hc as [_ [H2 _]].
    specialize (IH st1 h1 (o ++ utf8 t) (n - length (utf8 t))%nat).
    destruct (steps step cs st1 h1) as [[[t' st2] h2] xs]. rewrite utf8_app, app_length. intros L.
    cbv beta in H2. rewrite H2, IH by lia. rewrite <- app_assoc. do 4 f_equal. lia.
Qed.

Lemma full_live : forall cs st h o, live st ->
  exists h' st' rs, live st' /\ run_calls f (Writer (Sink o (Some O)) h st) cs = (Writer (Sink o (Some O)) h' st', rs).
Proof.
  induction cs as [|c cs IH]; intros st h o L; cbn [run_calls]; [eauto|].
  pose proof (R c st h) as Hc. pose proof (gs_stay _ _ G c st h L) as Hs.
  destruct (step c st h) as [[[t st1] h1] x]. destruct Hc as [_ [H2 H3]].
  unfold step_text, step_st in Hs. cbn [fst snd] in Hs. destruct (utf8 t) as [|b bs] eqn:Et.
  - specialize (H2 o O (le_n _)). cbv beta in H2. rewrite H2. cbn [length Nat.sub]. rewrite app_nil_r.
    destruct (IH st1 h1 o (Hs eq_refl)) as (h' & st' & rs & A & ->). eauto.
  - destruct (H3 o O ltac:(cbn; lia)) as (h2 & s2 & E & Hst & ->). cbv beta in E. rewrite E.
    cbn [firstn]. rewrite app_nil_r.
    assert (live s2) as L2 by (destruct Hst as [-> | [-> ->]]; [exact L|now apply (gs_writing _ _ G)]).
    destruct (IH s2 h o L2) as (h' & st' & rs & A & ->). eauto.
Qed.

(** After output that did not fit the sink is full, and a close will fail. *)
Lemma run_over : forall cs st h o n,
  let '(t, st', h', rs) := steps step cs st h in
  (n < length (utf8 t))%nat ->
  exists h' st' rs, live st' /\ run_calls f (Writer (Sink o (Some n)) h st) cs
  = (Writer (Sink (o ++ firstn n (utf8 t)) (Some O)) h' st', rs).
Proof.
  induction cs as [|c cs IH]; intros st h o n; cbn [steps run_calls]; [cbn; lia|].
  pose proof (R c st h) as Hc. pose proof (gs_from _ _ G c st h) as Hs.
  destruct (step c st h) as [[[t st1] h1] x]. unfold step_text in Hs. cbn [fst] in Hs.
  destruct Hc as [_ [H2 H3]]. cbv beta in *.
  specialize (IH st1 h1 (o ++ utf8 t) (n - length (utf8 t))%nat).
  destruct (steps step cs st1 h1) as [[[t' st2] h2] xs]. rewrite utf8_app, app_length. intros L.
  rewrite firstn_app. destruct (Nat.le_gt_cases (length (utf8 t)) n) as [L1|L1].
  - rewrite (H2 o n L1). destruct IH as (h' & st' & rs & A & ->); [lia|].
    rewrite (firstn_all2 (utf8 t)) by lia. rewrite <- app_assoc. eauto.
  - destruct (H3 o n L1) as (h3 & s3 & E3 & Hst & ->). rewrite E3.
    replace (n - length (utf8 t))%nat with O by lia. cbn [firstn]. rewrite app_nil_r.
    assert (live st) as L0 by (apply Hs; intros E; rewrite E in L1; cbn in L1; lia).
    assert (live s3) as L3 by (destruct Hst as [-> | [-> ->]]; [exact L0|now apply (gs_writing _ _ G)]).
    destruct (full_live cs s3 h (o ++ firstn n (utf8 t)) L3) as (h' & st' & rs & A & ->). eauto.
Qed.

Lemma steps_snoc cs c : forall st h,
  let '(t, st', h', rs) := steps step cs st h in
  let '(t1, st1, h1, r) := step c st' h' in
  steps step (cs ++ [c]) st h = (t ++ t1, st1, h1, rs ++ [r]).
Proof.
  induction cs as [|c0 cs IH]; intros st h; cbn [steps app].
  - destruct (step c st h) as [[[t1 st1] h1] r]. now rewrite app_nil_r.
  - destruct (step c0 st h) as [[[t0 st0] h0] r0]. specialize (IH st0 h0).
    destruct (steps step cs st0 h0) as [[[t st'] h'] rs]. destruct (step c st' h') as [[[t1 st1] h1] r].
    rewrite IH. now rewrite app_assoc.
Qed.

(** The close after any calls. *)
Lemma close_after cs cap :
  let full := out (fst (run_calls f (new_writer None) (cs ++ [CClose]))) in
  exists w' r, f (fst (run_calls f (new_writer cap) cs)) CClose = (w', r) /\
    s_out (w_sink w') = received cap full /\ (r = if room cap full then WOk tt else WErr EIo) /\
    (room cap full = true -> is_open w' = false) /\
    (room cap full = false -> live (w_state w') /\ s_cap (w_sink w') = Some O).
Proof.
  cbv zeta. pose proof (run_uncapped f step R (cs ++ [CClose]) Initial [] []) as U.
  pose proof (run_uncapped f step R cs Initial [] []) as U0.
  pose proof (run_fits cs Initial [] []) as F. pose proof (run_over cs Initial [] []) as V.
  pose proof (steps_snoc cs CClose Initial []) as S.
  destruct (steps step cs Initial []) as [[[t st] h] rs].
  pose proof (R CClose st h) as Hc. pose proof (gs_from _ _ G CClose st h) as Gf. pose proof (gs_ok _ _ G st h) as K. pose proof (gs_closed _ _ G st h) as K2.
  destruct (step CClose st h) as [[[t1 st1] h1] r]. rewrite S in U. unfold step_st in K2. unfold step_text in Gf. cbn [fst snd] in K, K2, Gf. subst r st1.
  unfold new_writer. rewrite U. cbn [fst out w_sink s_out app]. destruct Hc as [H1 [H2 H3]]. cbv beta in *.
  destruct cap as [n|]; cbn [received room].
  - rewrite utf8_app, app_length. destruct (Nat.leb_spec (length (utf8 t) + length (utf8 t1)) n) as [L|L].
    + rewrite F by lia. cbn [fst]. rewrite H2 by lia. do 2 eexists. split; [reflexivity|].
      cbn [w_sink s_out app]. rewrite firstn_all2 by (rewrite app_length; lia). repeat split; discriminate.
    + destruct (Nat.le_gt_cases (length (utf8 t)) n) as [L1|L1].
      * rewrite F by lia. cbn [fst].
        destruct (H3 ([] ++ utf8 t) (n - length (utf8 t))%nat ltac:(lia)) as (h2 & s2 & -> & Hs & _).
        do 2 eexists. split; [reflexivity|]. cbn [w_sink s_out s_cap w_state app].
        rewrite firstn_app, (firstn_all2 (utf8 t)) by lia. repeat split; [discriminate|].
        assert (live st) as L0 by (apply Gf; intros E; rewrite E in L; cbn in L; lia).
        destruct Hs as [-> | [-> ->]]; [exact L0|now apply (gs_writing _ _ G)].
      * destruct (V n L1) as (h' & st' & rs' & A & ->). cbn [fst].
        pose proof (R CClose st' h') as Hc'. pose proof (gs_close _ _ G st' h' A) as N.
        destruct (step CClose st' h') as [[[t2 st2] h2] r2]. unfold step_text in N. cbn [fst] in N.
        destruct Hc' as (_ & _ & H3'). cbv beta in H3'.
        destruct (H3' ([] ++ firstn n (utf8 t)) O) as (h3 & s3 & -> & Hs & _).
        { destruct (utf8 t2); [easy|cbn; lia]. }
        do 2 eexists. split; [reflexivity|]. cbn [w_sink s_out s_cap w_state app firstn]. rewrite app_nil_r, firstn_app.
        replace (n - length (utf8 t))%nat with 0%nat by lia. cbn [firstn]. rewrite app_nil_r. repeat split; [discriminate|].
        destruct Hs as [-> | [-> ->]]; [exact A|now apply (gs_writing _ _ G)].
  - rewrite U0. cbn [fst]. rewrite H1. do 2 eexists. split; [reflexivity|]. cbn [w_sink s_out app].
    rewrite utf8_app. repeat split; discriminate.
Qed.

(** A close on a full sink fails. *)
Lemma close_full w : live (w_state w) -> s_cap (w_sink w) = Some O ->
  exists w', f w CClose = (w', WErr EIo) /\ s_out (w_sink w') = s_out (w_sink w).
Proof.
  destruct w as [[o cap] h st]. cbn [w_state w_sink s_cap s_out]. intros L ->.
  pose proof (R CClose st h) as Hc. pose proof (gs_close _ _ G st h L) as N.
  destruct (step CClose st h) as [[[t2 st2] h2] r2]. unfold step_text in N. cbn [fst] in N.
  destruct Hc as (_ & _ & H3). cbv beta in H3. destruct (H3 o O) as (h3 & s3 & -> & _ & _).
  { destruct (utf8 t2); [easy|cbn; lia]. }
  eexists. split; [reflexivity|]. cbn. apply app_nil_r.
Qed.

Lemma ends : ends_properly f.
Proof.
  intros cs cap. cbv zeta. destruct (close_after cs cap) as (w' & r & E & A & -> & _).
  unfold drop_writer, writer_into_inner, unwind_writer. rewrite E.
  split; destruct (room cap _); eexists; split; try reflexivity; exact A.
Qed.

(** The loop of from_iter makes the calls until one fails. *)
Lemma loop_runs : (forall o st h, st <> Closed -> snd (step (CWrite o) st h) = write_res o /\
    step_st (step (CWrite o) st h) = WritingObjects) ->
  forall os st h o cap, st <> Closed ->
  let w := Writer (Sink o cap) h st in
  let '(t, _, _, _) := steps step (map CWrite (attempted os)) st h in
  if room cap (utf8 t) then
    from_iter_loop f w os =
      let w1 := fst (run_calls f w (map CWrite (attempted os))) in
      if forallb versioned os then
        match f w1 CClose with (w2, WOk _) => (w2, WOk tt) | (w2, _) => (w2, WPanic) end
      else (w1, WPanic)
  else exists s h' st', from_iter_loop f w os = (Writer (Sink (o ++ s) (Some O)) h' st', WPanic) /\ live st' /\
         s = received cap (utf8 t).
Proof.
  intros W. induction os as [|b os IH]; intros st h o cap Hst w.
  - cbn [attempted map steps run_calls fst forallb from_iter_loop]. replace (room cap (utf8 [])) with true by now destruct cap.
    reflexivity.
  - cbn [attempted map steps run_calls forallb from_iter_loop].
    pose proof (R (CWrite b) st h) as Hc. pose proof (W b st h Hst) as [K1 K2]. pose proof (gs_from _ _ G (CWrite b) st h) as Gf.
    destruct (step (CWrite b) st h) as [[[t st1] h1] r]. unfold step_st in K2. unfold step_text in Gf. cbn [fst snd] in K1, K2, Gf. subst r st1.
    destruct Hc as [H1 [H2 H3]]. cbv beta in *.
    assert (C : room cap (utf8 t) = true -> exists cap', 
      f w (CWrite b) = (Writer (Sink (o ++ utf8 t) cap') h1 WritingObjects, write_res b) /\
      (forall u, room cap (utf8 t ++ u) = room cap' u) /\ (forall u, received cap (utf8 t ++ u) = utf8 t ++ received cap' u)).
    { destruct cap as [n|]; cbn [room received].
      - intros L. apply Nat.leb_le in L. exists (Some (n - length (utf8 t))%nat). split; [now apply H2|].
        split; intros u; cbn [room received].
        + rewrite app_length. apply eq_true_iff_eq. rewrite !Nat.leb_le. lia.
        + rewrite firstn_app, (firstn_all2 (utf8 t)) by lia. reflexivity.
      - intros _. exists None. split; [apply H1|]. split; reflexivity. }
    destruct (room cap (utf8 t)) eqn:Er.
    + destruct C as (cap' & E & C1 & C2); [reflexivity|]. unfold write_res in E. rewrite E. unfold versioned.
      destruct (m_version (s_meta b)).
      * cbn [andb]. specialize (IH WritingObjects h1 (o ++ utf8 t) cap' ltac:(discriminate)). cbv zeta in IH.
        destruct (steps step (map CWrite (attempted os)) WritingObjects h1) as [[[t' st'] h'] rs].
        rewrite utf8_app, C1. destruct (room cap' (utf8 t')).
        -- rewrite IH. destruct (run_calls f _ (map CWrite (attempted os))). reflexivity.
        -- destruct IH as (s & h'' & st'' & -> & A & ->). exists (utf8 t ++ received cap' (utf8 t')), h'', st''.
           rewrite C2, <- app_assoc. auto.
      * cbn [map steps andb run_calls fst]. rewrite app_nil_r, Er. reflexivity.
    + destruct cap as [n|]; [|discriminate]. cbn [room] in Er. apply Nat.leb_gt in Er.
      destruct (H3 o n Er) as (h3 & s3 & E3 & Hs & ->). fold w in E3. rewrite E3.
      assert (live st) as L0 by (apply Gf; intros E; rewrite E in Er; cbn in Er; lia).
      assert (live s3) as L3 by (destruct Hs as [-> | [-> ->]]; [exact L0|now apply (gs_writing _ _ G)]).
      destruct (steps step _ WritingObjects h1) as [[[t' st'] h'] rs].
      cbn [room received]. rewrite utf8_app, app_length.
      replace (Nat.leb _ _) with false by (symmetry; apply Nat.leb_gt; lia).
      exists (firstn n (utf8 t)), h, s3. split; [reflexivity|]. split; [exact L3|].
      rewrite firstn_app. replace (n - length (utf8 t))%nat with 0%nat by lia. cbn [firstn]. now rewrite app_nil_r.
Qed.

Lemma from_iter_runs op cl :
  (forall o st h, st <> Closed -> snd (step (CWrite o) st h) = write_res o /\
    step_st (step (CWrite o) st h) = WritingObjects) ->
  (forall os, out (fst (run_calls f (new_writer None) (map CWrite os ++ [CClose])))
    = utf8 (op ++ flat_map write_text os ++ cl)) ->
  from_iter_ends f op cl.
Proof.
  intros W D cap os. cbv zeta. rewrite <- D.
  pose proof (close_after (map CWrite (attempted os)) cap) as C. cbv zeta in C.
  pose proof (loop_runs W os Initial [] [] cap ltac:(discriminate)) as L. cbv zeta in L.
  pose proof (run_uncapped f step R (map CWrite (attempted os) ++ [CClose]) Initial [] []) as U.
  pose proof (steps_snoc (map CWrite (attempted os)) CClose Initial []) as S.
  unfold from_iter_end, from_iter. fold (new_writer cap) in L.
  destruct (steps step (map CWrite (attempted os)) Initial []) as [[[t st] h] rs].
  destruct (step CClose st h) as [[[t1 st1] h1] r1]. rewrite S in U.
  assert (Ef : out (fst (run_calls f (new_writer None) (map CWrite (attempted os) ++ [CClose]))) = utf8 t ++ utf8 t1).
  { unfold new_writer. rewrite U. cbn. now rewrite utf8_app. }
  destruct C as (w' & r & E & A & -> & Hopen & Hfail). set (full := out _) in *.
  destruct (room cap (utf8 t)) eqn:Er.
  - rewrite L. destruct (forallb versioned os); cbn [andb].
    + rewrite E. destruct (room cap full) eqn:Ef2.
      * repeat split; [|now apply Hopen]. unfold out. rewrite A. destruct cap as [n|]; [|reflexivity].
        cbn [room received] in *. apply Nat.leb_le in Ef2. now apply firstn_all2.
      * destruct (Hfail eq_refl) as [F1 F2]. destruct (close_full w' F1 F2) as (w2 & E2 & A2).
        unfold unwind_writer. rewrite E2. repeat split. now rewrite A2.
    + unfold unwind_writer. rewrite E. destruct (room cap full); repeat split; exact A.
  - destruct L as (s & h' & st' & -> & Lv & ->).
    assert (exists n, cap = Some n) as [n ->] by (destruct cap; [eauto|discriminate]).
    assert (room (Some n) full = false) as Ef2.
    { cbn [room] in *. rewrite Ef, app_length. apply Nat.leb_gt in Er. apply Nat.leb_gt. lia. }
    rewrite Ef2, andb_false_r. unfold unwind_writer.
    destruct (close_full (Writer (Sink ([] ++ received (Some n) (utf8 t)) (Some O)) h' st') Lv eq_refl) as (w2 & -> & A2).
    cbn [w_sink s_out app] in A2. repeat split. rewrite A2.
    rewrite Ef. cbn [received room] in *. apply Nat.leb_gt in Er. rewrite firstn_app.
    replace (n - length (utf8 t))%nat with 0%nat by lia. cbn [firstn]. now rewrite app_nil_r.
Qed.
End Run.

(** ** C105 *)

Theorem C105_drop : (forall ord, ends_properly (xml_call ord)) /\ ends_properly osc_call.
Proof.
  split; [intros ord; exact (ends _ _ _ (xml_refines ord) (xml_good ord))|exact (ends _ _ _ osc_refines osc_good)].
Qed.
Print Assumptions C105_drop.

Theorem C105_from_iter : (forall ord, (forall l, Permutation (ord l) l) ->
    from_iter_ends (xml_call ord) (xml_opening []) xml_closing) /\
  from_iter_ends osc_call osc_opening osc_closing.
Proof.
  assert (Wr : forall os, written (map CWrite os ++ [CClose]) = os) by (induction os as [|o os IH]; cbn; congruence).
  assert (St : forall os, started (map CWrite os ++ [CClose]) = true)
    by (intros os; unfold started; rewrite existsb_app; apply orb_true_r).
  assert (Cl : forall os, closed (map CWrite os ++ [CClose]) = true)
    by (intros os; unfold closed; rewrite existsb_app; apply orb_true_r).
  assert (Cs : forall os, closes (map CWrite os ++ [CClose]) = 1%nat)
    by (induction os as [|o os IH]; [reflexivity|exact IH]).
  split.
  - intros ord Hord. apply (from_iter_runs _ _ _ (xml_refines ord) (xml_good ord)).
    + intros o st h H. now destruct st.
    + intros os. pose proof (new_run _ _ (xml_refines ord) (map CWrite os ++ [CClose])) as H.
      pose proof (steps_initial_xml ord (map CWrite os ++ [CClose]) []) as S.
      destruct (steps _ _ Initial []) as [[[t st] h] rs]. rewrite H. destruct S as (-> & _ & _).
      cbn [fst out w_sink s_out]. rewrite Wr, St, Cs. cbn [repeat concat]. rewrite app_nil_r.
      replace (header_calls (map CWrite os ++ [CClose])) with (@nil (str * str)) by now destruct os.
      cbn [headers_of fold_left]. replace (ord []) with (@nil (str * str)); [reflexivity|].
      symmetry. apply Permutation_nil. symmetry. apply Hord.
  - apply (from_iter_runs _ _ _ osc_refines osc_good).
    + intros o st h H. now destruct st.
    + intros os. pose proof (new_run _ _ osc_refines (map CWrite os ++ [CClose])) as H.
      pose proof (steps_initial_osc (map CWrite os ++ [CClose]) []) as S.
      destruct (steps _ _ Initial []) as [[[t st] h] rs]. rewrite H. destruct S as (-> & _ & _).
      cbn [fst out w_sink s_out]. now rewrite Wr, St, Cl.
Qed.
Print Assumptions C105_from_iter.

(** A node without a version spoils the document and unwinds; a sink that is too small
    aborts; the same sink makes a plain drop panic. *)
Definition ex_bare : sobj := SNode (SN (Meta 8 None false None None None None) [] (Some (0, 0))).
Example C105_ex :
  from_iter_end osc_call None [ex_node; ex_bare; ex_way]
  = inr (Sink (utf8 (osc_opening ++ obj_text ex_node ++ broken_text ex_bare ++ osc_closing)) None, Unwinds) /\
  from_iter_end osc_call (Some 50%nat) [ex_node] = inr (Sink (firstn 50 (utf8 osc_opening)) (Some O), Aborts) /\
  drop_writer osc_call (fst (run_calls osc_call (new_writer (Some 50%nat)) [CWrite ex_node]))
  = (Sink (firstn 50 (utf8 osc_opening)) (Some O), Unwinds) /\
  writer_into_inner osc_call (fst (run_calls osc_call (new_writer None) [CWrite ex_node]))
  = (Sink (utf8 (osc_document [ex_node])) None, Unwinds).
Proof. vm_compute. repeat split. Qed.
