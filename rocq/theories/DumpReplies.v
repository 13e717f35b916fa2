(** The replies of the changeset readers for the beginning of a dump. *)
From Coq Require Import String ZArith List Bool Lia.
From Coq Require Import ZifyBool ZifyNat.
From Verif Require Import Base SpecNum Ints Utf8 Timestamp Obj SpecJson XmlToken Changesets QuickXml SpecDump DumpFacts DumpCut
  SpecChangeset ChangesetFacts ChangesetTags ChangesetCut SpecDumpText DumpWrite PropsChangeset.
Import ListNotations.
Open Scope Z_scope.

(** ** Cutting lists *)

Lemma app_cut {A} (a b c d : list A) : a ++ b = c ++ d ->
  (exists e, c = a ++ e /\ b = e ++ d) \/ (exists e, a = c ++ e /\ e <> []).
Proof.
  revert c. induction a as [|x a IH]; intros c E.
  - left. exists c. now split.
  - destruct c as [|y c].
    + right. exists (x :: a). now split.
    + injection E as <- E. destruct (IH c E) as [(e & -> & ->)|(e & -> & He)].
      * left. now exists e.
      * right. now exists e.
Qed.

Lemma events_app a b : events (a ++ b) = events a ++ events b.
Proof. apply flat_map_app. Qed.

Lemma events_cut ps : forall evs rest, events ps = evs ++ rest ->
  exists ps1 ps2, ps = ps1 ++ ps2 /\
  (evs = events ps1
   \/ exists n a body1 body2 close ps3, ps2 = CFull n a (body1 ++ body2) close :: ps3
        /\ evs = events ps1 ++ QStart n a :: body1).
Proof.
  induction ps as [|p ps IH]; intros evs rest E.
  - destruct evs; [|discriminate]. exists [], []. split; [reflexivity|now left].
  - unfold events in E. cbn [flat_map] in E. fold (events ps) in E.
    destruct (app_cut _ _ _ _ E) as [(e & -> & E')|(e & Ep & He)].
    + destruct (IH _ _ E') as (ps1 & ps2 & -> & H). exists (p :: ps1), ps2. split; [reflexivity|].
      unfold events. cbn [flat_map]. fold (events ps1).
      destruct H as [->|(n & a & b1 & b2 & cl & ps3 & -> & ->)]; [now left|].
      right. exists n, a, b1, b2, cl, ps3. split; [reflexivity|]. now rewrite app_assoc.
    + exists [], (p :: ps). split; [reflexivity|]. destruct evs as [|ev evs]; [now left|]. right.
      destruct p as [x|n a|n a body close]; cbn [part_events] in Ep.
      * injection Ep as _ Ep. symmetry in Ep. apply app_eq_nil in Ep as [_ ->]. easy.
      * injection Ep as _ Ep. symmetry in Ep. apply app_eq_nil in Ep as [_ ->]. easy.
      * injection Ep as <- Ep. destruct e as [|x e _] using rev_ind; [easy|].
        rewrite app_assoc in Ep. apply app_inj_tail in Ep as [-> _].
        exists n, a, evs, e, close, ps. split; reflexivity.
Qed.

(** ** Cutting texts *)

Lemma pieces_cut xs t : forall b1 b2, flat_map piece_bytes xs ++ t = b1 ++ b2 ->
  (exists ys x zs u w, xs = ys ++ x :: zs /\ b1 = flat_map piece_bytes ys ++ u /\ piece_bytes x = u ++ w /\ w <> [])
  \/ (exists u w, b1 = flat_map piece_bytes xs ++ u /\ t = u ++ w).
Proof.
  induction xs as [|x xs IH]; intros b1 b2 E; cbn [flat_map] in *.
  - right. exists b1, b2. now split.
  - rewrite <- app_assoc in E. destruct (app_cut _ _ _ _ E) as [(e & -> & E')|(e & Ep & He)].
    + destruct (IH _ _ E') as [(ys & y & zs & u & w & -> & -> & Hy & Hw)|(u & w & -> & ->)].
      * left. exists (x :: ys), y, zs, u, w. split; [reflexivity|]. cbn [flat_map]. rewrite app_assoc. now repeat split.
      * right. exists u, w. now rewrite app_assoc.
    + left. exists [], x, xs, b1, e. repeat split; assumption.
Qed.

Lemma plain_app a b : plain_text (a ++ b) -> plain_text a /\ plain_text b.
Proof. unfold plain_text. rewrite !in_app_iff. tauto. Qed.

Lemma text_event_app u w : text_event (u ++ w) = text_event u ++ match u with [] => text_event w | _ => [] end.
Proof. destruct u as [|c u]; [reflexivity|]. cbn. reflexivity. Qed.

Lemma opened_some l1 l2 st : opened st (l1 ++ l2) <> None -> exists st', opened st l1 = Some st'.
Proof. rewrite opened_app. destruct (opened st l1) as [st'|]; [now exists st'|easy]. Qed.

(** A beginning of a text: its events, and whether it ends inside a markup. *)
Lemma text_begins l b b1 b2 : text_of l b -> b = b1 ++ b2 ->
  exists evs rest (frag : bool), l = evs ++ rest
    /\ begun evs frag b1
    /\ q_items b1 = map QEv evs ++ (if frag then [QErr] else []).
Proof.
  intros (xs & t & Hx & Ht & -> & -> & Ho) E.
  destruct (pieces_cut xs t b1 b2 E) as [(ys & x & zs & u & w & -> & -> & Hxu & Hw)|(u & w & -> & ->)].
  - apply Forall_app in Hx as [Hys Hx]. inversion Hx as [|? ? [Hxt Hxm] _]; subst.
    rewrite flat_map_app in Ho |- *. cbn [flat_map] in Ho |- *. unfold piece_events at 2 in Ho. unfold piece_events at 2.
    rewrite <- !app_assoc in Ho |- *. unfold piece_bytes in Hxu.
    pose proof Ho as Ho1. apply opened_some in Ho1 as [st1 Ho1].
    destruct (app_cut _ _ _ _ (eq_sym Hxu)) as [(e & Exu & Ew)|(e & Eu & He)].
    + (* in the character data *)
      rewrite Exu in *. apply plain_app in Hxt as [Hu _].
      destruct (text_cut ys st1 Hys Ho1 u Hu) as [T1 _].
      eexists (flat_map piece_events ys ++ text_event u), _, false.
      split; [rewrite text_event_app, <- !app_assoc; reflexivity|]. split; [|rewrite T1; now rewrite app_nil_r].
      exists (flat_map piece_bytes ys ++ u), []. split; [now rewrite app_nil_r|]. split; [|reflexivity].
      exists ys, u. repeat (split; [assumption || reflexivity|]). rewrite opened_app, Ho1. now destruct u.
    + (* in the markup *)
      subst u. rewrite <- app_assoc in Hxu. apply app_inv_head in Hxu.
      assert (Ho2 : exists st2, opened [] (flat_map piece_events ys ++ text_event (pc_text x) ++ [pc_event x]) = Some st2).
      { apply opened_some with (l2 := flat_map piece_events zs ++ text_event t). rewrite <- !app_assoc. exact Ho. }
      destruct Ho2 as [st2 Ho2].
      destruct (markup_beginning ys (pc_event x) (pc_markup x) e w st2 Hys Hxm (pc_text x) Hxt Ho2 Hxu He Hw) as [T1 _].
      exists (flat_map piece_events ys ++ text_event (pc_text x)), ([pc_event x] ++ flat_map piece_events zs ++ text_event t), true.
      split; [rewrite <- !app_assoc; reflexivity|]. split; [|exact T1].
      exists (flat_map piece_bytes ys ++ pc_text x), e. split; [now rewrite <- app_assoc|]. split.
      * exists ys, (pc_text x). repeat (split; [assumption || reflexivity|]). rewrite opened_app, Ho1. now destruct (pc_text x).
      * exists (pc_event x), (pc_markup x), w. repeat split; assumption.
  - apply plain_app in Ht as [Hu _]. pose proof Ho as Ho1. apply opened_some in Ho1 as [st1 Ho1].
    destruct (text_cut xs st1 Hx Ho1 u Hu) as [T1 _].
    eexists (flat_map piece_events xs ++ text_event u), _, false.
    split; [rewrite text_event_app, <- !app_assoc; reflexivity|]. split; [|rewrite T1; now rewrite app_nil_r].
    exists (flat_map piece_bytes xs ++ u), []. split; [now rewrite app_nil_r|]. split; [|reflexivity].
    exists xs, u. repeat (split; [assumption || reflexivity|]). rewrite opened_app, Ho1. now destruct u.
Qed.

(** The same for a source that fails. *)
Lemma text_fails l b b1 b2 : text_of l b -> b = b1 ++ b2 ->
  exists evs rest, l = evs ++ rest
    /\ begun_io evs b1
    /\ q_items_io b1 = map QEv evs ++ [QErr].
Proof.
  intros (xs & t & Hx & Ht & -> & -> & Ho) E.
  destruct (pieces_cut xs t b1 b2 E) as [(ys & x & zs & u & w & -> & -> & Hxu & Hw)|(u & w & -> & ->)].
  - apply Forall_app in Hx as [Hys Hx]. inversion Hx as [|? ? [Hxt Hxm] _]; subst.
    rewrite flat_map_app in Ho |- *. cbn [flat_map] in Ho |- *. unfold piece_events at 2 in Ho. unfold piece_events at 2.
    rewrite <- !app_assoc in Ho |- *. unfold piece_bytes in Hxu.
    pose proof Ho as Ho1. apply opened_some in Ho1 as [st1 Ho1].
    destruct (app_cut _ _ _ _ (eq_sym Hxu)) as [(e & Exu & Ew)|(e & Eu & He)].
    + rewrite Exu in *. apply plain_app in Hxt as [Hu _].
      destruct (text_cut ys st1 Hys Ho1 u Hu) as [_ T1].
      eexists (flat_map piece_events ys), _. split; [reflexivity|]. split; [|exact T1].
      exists (flat_map piece_bytes ys), u. split; [reflexivity|]. split; [|now left].
      exists ys, []. rewrite !app_nil_r. repeat (split; [assumption || reflexivity|]).
      split; [split; exact (fun H => H)|]. repeat (split; [reflexivity|]). now rewrite Ho1.
    + subst u. rewrite <- app_assoc in Hxu. apply app_inv_head in Hxu.
      assert (Ho2 : exists st2, opened [] (flat_map piece_events ys ++ text_event (pc_text x) ++ [pc_event x]) = Some st2).
      { apply opened_some with (l2 := flat_map piece_events zs ++ text_event t). rewrite <- !app_assoc. exact Ho. }
      destruct Ho2 as [st2 Ho2].
      destruct (markup_beginning ys (pc_event x) (pc_markup x) e w st2 Hys Hxm (pc_text x) Hxt Ho2 Hxu He Hw) as [_ T1].
      exists (flat_map piece_events ys ++ text_event (pc_text x)), ([pc_event x] ++ flat_map piece_events zs ++ text_event t).
      split; [rewrite <- !app_assoc; reflexivity|]. split; [|exact T1].
      exists (flat_map piece_bytes ys ++ pc_text x), e. split; [now rewrite <- app_assoc|]. split.
      * exists ys, (pc_text x). repeat (split; [assumption || reflexivity|]). rewrite opened_app, Ho1. now destruct (pc_text x).
      * right. exists (pc_event x), (pc_markup x), w. repeat split; assumption.
  - apply plain_app in Ht as [Hu _]. pose proof Ho as Ho1. apply opened_some in Ho1 as [st1 Ho1].
    destruct (text_cut xs st1 Hx Ho1 u Hu) as [_ T1].
    eexists (flat_map piece_events xs), _. split; [reflexivity|]. split; [|exact T1].
    exists (flat_map piece_bytes xs), u. split; [reflexivity|]. split; [|now left].
    exists xs, []. rewrite !app_nil_r. split; [assumption|]. split; [split; exact (fun H => H)|].
    repeat (split; [reflexivity|]). now rewrite Ho1.
Qed.

(** ** The changeset reader *)

Section Reader.
Variable norm : str -> option str.

Definition stuck (l : list qitem) : Prop := forall fuel, next_changeset norm fuel l = Out.

Lemma stuck_skips es r : Forall skipped es -> stuck r -> stuck (map QEv es ++ r).
Proof.
  induction 1 as [|e es He _ IH]; intros H; [exact H|]. intros [|f]; [reflexivity|]. cbn [map app].
  rewrite next_skip by exact He. now apply IH.
Qed.

(** The content of a changeset that is not closed. *)
Lemma tags_loop_open body tl : Forall (not_about "changeset") body -> tag_distinct body ->
  Forall (fun a => tag_value norm a <> None) (tag_elements body) ->
  forall f t, exists t', tags_loop norm (length body + f) t (map QEv body ++ tl) = tags_loop norm f t' tl.
Proof.
  unfold tag_distinct, tag_elements. induction body as [|e body IH]; intros HF Hd Hv f t; [now exists t|].
  inversion HF as [|? ? He HF']; subst. cbn [filter_map length map app Nat.add tags_loop] in *.
  destruct e as [n a|n a|n|]; cbn [tag_attrs not_about] in *.
  1,2: destruct (str_eq_dec (local_part n) (lit "tag")) as [E|E];
    [inversion Hd; inversion Hv; subst; apply local_is_eq in E; rewrite E, read_tag_spec by assumption;
     destruct (tag_value norm a) as [[k v]|]; [|congruence]; now apply IH
    |apply local_is_neq in E; rewrite E; now apply IH].
  - apply local_is_neq in He. rewrite He. now apply IH.
  - now apply IH.
Qed.

Lemma tags_loop_more f : forall t l g, tags_loop norm f t l = Out -> (g <= f)%nat -> tags_loop norm g t l = Out.
Proof.
  induction f as [|f IH]; intros t l g H Hg.
  - now replace g with 0%nat by lia.
  - destruct g as [|g]; [reflexivity|]. assert (Hg' : (g <= f)%nat) by lia. cbn [tags_loop] in *.
    destruct l as [|[[n a|n a|n|]|] l]; eauto;
    repeat match goal with
    | H : context [if ?c then _ else _] |- _ => destruct c; eauto
    | H : context [match read_tag ?x ?y with _ => _ end] |- _ => destruct (read_tag x y) as [[? ?]|]; eauto
    end.
Qed.

Lemma open_good n a body1 body2 close : wf_part (CFull n a (body1 ++ body2) close) ->
  changeset_value norm a (body1 ++ body2) <> None ->
  exists b, take_attrs norm builder0 a = Some b /\ Forall (not_about "changeset") body1 /\ tag_distinct body1
    /\ Forall (fun a => tag_value norm a <> None) (tag_elements body1).
Proof.
  intros (Hn & Hc & Hd & Hb & Ht) Hv. rewrite changeset_value_eq in Hv by assumption.
  destruct (sequence (map (tag_value norm) (tag_elements (body1 ++ body2)))) as [ts|] eqn:Es; [|congruence].
  unfold attrs_value in Hv. destruct (take_attrs norm builder0 a) as [b|] eqn:Eb; [|congruence].
  exists b. split; [reflexivity|]. apply Forall_app in Hb as [Hb1 _]. split; [exact Hb1|].
  unfold tag_distinct, tag_elements in *. rewrite filter_map_app in Ht. apply Forall_app in Ht as [Ht1 _].
  split; [exact Ht1|]. rewrite filter_map_app, map_app in Es. clear -Es.
  revert ts Es. generalize (map (tag_value norm) (filter_map tag_attrs body2)). intros l2.
  induction (filter_map tag_attrs body1) as [|x l IH]; intros ts Es; constructor.
  - cbn in Es. destruct (tag_value norm x); discriminate.
  - cbn in Es. destruct (tag_value norm x); [|discriminate].
    destruct (sequence (map (tag_value norm) l ++ l2)) eqn:E; [|discriminate]. eapply IH. reflexivity.
Qed.

Lemma open_stuck n a body1 body2 close : wf_part (CFull n a (body1 ++ body2) close) ->
  changeset_value norm a (body1 ++ body2) <> None -> stuck (QEv (QStart n a) :: map QEv body1).
Proof.
  intros Hw Hv. destruct (open_good _ _ _ _ _ Hw Hv) as (b & Eb & H1 & H2 & H3).
  destruct Hw as (Hn & _). apply local_is_eq in Hn. intros [|f]; [reflexivity|]. cbn [next_changeset]. rewrite Hn, Eb.
  destruct (tags_loop_open body1 [] H1 H2 H3 f []) as [t' E]. rewrite app_nil_r, tags_loop_eof in E.
  rewrite (tags_loop_more _ _ _ f E) by lia. reflexivity.
Qed.

Lemma open_error n a body1 body2 close : wf_part (CFull n a (body1 ++ body2) close) ->
  changeset_value norm a (body1 ++ body2) <> None ->
  Replies (cs_step norm) (QEv (QStart n a) :: map QEv body1 ++ [QErr]) [Error].
Proof.
  intros Hw Hv. destruct (open_good _ _ _ _ _ Hw Hv) as (b & Eb & H1 & H2 & H3).
  destruct Hw as (Hn & _). apply local_is_eq in Hn.
  apply Replies_error with (s' := []); [|apply Replies_end with (s' := []); exists 1%nat; reflexivity].
  exists (S (length body1 + 1)). cbn [next_changeset]. rewrite Hn, Eb.
  destruct (tags_loop_open body1 [QErr] H1 H2 H3 1 []) as [t' E]. rewrite E. reflexivity.
Qed.

Lemma parts_then ps tail rs' : Forall wf_part ps -> Replies (cs_step norm) tail rs' ->
  exists rs, Replies (cs_step norm) (file ps ++ tail) (rs ++ rs') /\ Forall2 replies (file_value norm ps) rs.
Proof.
  intros Hw HR. destruct (reads_parts norm tail ps Hw) as (rs & (es & He & HC) & HV). exists rs. split; [|exact HV].
  eapply Calls_Replies; [exact HC|]. now apply Replies_skips.
Qed.
Lemma parts_stuck ps tail : Forall wf_part ps -> stuck tail ->
  exists rs s, Calls (cs_step norm) (file ps ++ tail) rs s /\ stuck s /\ Forall2 replies (file_value norm ps) rs.
Proof.
  intros Hw HR. destruct (reads_parts norm tail ps Hw) as (rs & (es & He & HC) & HV). exists rs, (map QEv es ++ tail).
  split; [exact HC|]. split; [now apply stuck_skips|exact HV].
Qed.

Lemma end_replies : Replies (cs_step norm) [] [].
Proof. apply Replies_end with (s' := []). now exists 1%nat. Qed.
Lemma error_replies : Replies (cs_step norm) [QErr] [Error].
Proof. apply Replies_error with (s' := []); [now exists 1%nat|apply end_replies]. Qed.

Lemma file_value_in ps1 n a body close ps3 : Forall (fun d => d <> None) (file_value norm (ps1 ++ CFull n a body close :: ps3)) ->
  changeset_value norm a body <> None.
Proof.
  unfold file_value. rewrite filter_map_app. cbn [filter_map part_value]. intros H. apply Forall_app in H as [_ H].
  now inversion H.
Qed.

(** ** The tag reader *)

Lemma tr_file_then ps tail rs' : (forall cur t, Replies (tr_step norm) (TR cur t tail) rs') ->
  Forall wf_part ps -> Forall (tr_part norm) ps ->
  forall cur t, Replies (tr_step norm) (TR cur t (file ps ++ tail)) (flat_map (tr_value norm) ps ++ rs').
Proof.
  intros Htail. induction 1 as [|p ps Hp HF IH]; intros HT cur t; [apply Htail|].
  inversion HT as [|? ? Hq HT']; subst. specialize (IH HT').
  unfold file in *. cbn [flat_map]. destruct p as [e|n a|n a body close]; cbn [render tr_value app].
  + eapply tr_replies_eq; [|apply (IH cur t)]. unfold tr_next. cbn [tr_id tr_tags tr_items next_tag].
    destruct e as [n a|n a|n|]; cbn [tr_part wf_part not_about] in *.
    * apply local_is_neq in Hp, Hq. now rewrite Hp, Hq.
    * apply local_is_neq in Hq. now rewrite Hq.
    * apply local_is_neq in Hp. now rewrite Hp.
    * reflexivity.
  + eapply tr_replies_eq; [|apply (IH cur t)]. unfold tr_next. cbn [tr_id tr_tags tr_items next_tag].
    destruct Hp as [Hn _]. unfold local_is. rewrite local_name_part, Hn. reflexivity.
  + destruct Hp as (Hn & Hc & Hd & Hbody & Ht). cbn [tr_part] in Hq. destruct Hq as [Hpa Ho].
    destruct (own_id norm a) as [i|] eqn:Ei; [|congruence].
    pose proof (take_id_spec norm a cur Hd Hpa) as Hid. rewrite Ei in Hid. specialize (Hid Ho).
    rewrite <- !app_assoc. cbn [app].
    eapply tr_replies_eq; [|apply (tr_body norm body close _ i _ Hbody Ht Hc (IH (Some i) []) [])].
    unfold tr_next. cbn [tr_id tr_tags tr_items next_tag].
    apply local_is_eq in Hn. rewrite Hn, Hid. reflexivity.
Qed.

Lemma tr_open_body body tl : Forall (not_about "changeset") body -> tag_distinct body ->
  Forall (fun a => tag_value norm a <> None) (tag_elements body) ->
  forall cur t, exists t', next_tag norm cur t (map QEv body ++ tl) = next_tag norm cur t' tl.
Proof.
  unfold tag_distinct, tag_elements. induction body as [|e body IH]; intros HF Hd Hv cur t; [now exists t|].
  inversion HF as [|? ? He HF']; subst. cbn [filter_map map app next_tag] in *.
  destruct e as [n a|n a|n|]; cbn [tag_attrs not_about] in *.
  1,2: try (apply local_is_neq in He; rewrite He);
    destruct (str_eq_dec (local_part n) (lit "tag")) as [E|E];
    [inversion Hd; inversion Hv; subst; apply local_is_eq in E; rewrite E, read_tag_spec by assumption;
     destruct (tag_value norm a) as [[k v]|]; [|congruence]; now apply IH
    |apply local_is_neq in E; rewrite E; now apply IH].
  - apply local_is_neq in He. rewrite He. now apply IH.
  - now apply IH.
Qed.

Lemma tr_end cur t : Replies (tr_step norm) (TR cur t []) [].
Proof. apply Replies_end with (s' := TR cur t []). reflexivity. Qed.
Lemma tr_error cur t : Replies (tr_step norm) (TR cur t [QErr]) [Error].
Proof. apply Replies_error with (s' := TR cur t []); [reflexivity|apply tr_end]. Qed.

Lemma tr_open n a body1 body2 close tl rs : wf_part (CFull n a (body1 ++ body2) close) ->
  changeset_value norm a (body1 ++ body2) <> None ->
  (forall cur t, Replies (tr_step norm) (TR cur t tl) rs) ->
  forall cur t, Replies (tr_step norm) (TR cur t (QEv (QStart n a) :: map QEv body1 ++ tl)) rs.
Proof.
  intros Hw Hv HR cur t. destruct (open_good _ _ _ _ _ Hw Hv) as (b & Eb & H1 & H2 & H3).
  destruct (changeset_value norm a (body1 ++ body2)) as [d|] eqn:Ed; [|congruence].
  destruct (changeset_value_parts _ _ _ _ Ed) as (Ep & Ei & _). destruct Hw as (Hn & _ & Hd & _).
  pose proof (take_id_spec norm a cur Hd Ep) as Hid. rewrite Ei in Hid. specialize (Hid ltac:(discriminate)).
  destruct (tr_open_body body1 tl H1 H2 H3 (Some (cs_id d)) []) as [t' E].
  eapply tr_replies_eq; [|apply (HR (Some (cs_id d)) t')]. unfold tr_next. cbn [tr_id tr_tags tr_items next_tag].
  apply local_is_eq in Hn. rewrite Hn, Hid. exact E.
Qed.

Lemma tr_parts ps : Forall (fun p => match p with Noise e => not_about "tag" e | _ => True end) ps ->
  Forall (fun d => d <> None) (file_value norm ps) ->
  Forall (tr_part norm) ps
  /\ flat_map (tr_value norm) ps = map (fun d => Item (cs_id d, cs_tags d)) (full_values norm ps).
Proof.
  induction ps as [|p ps IH]; intros HN HV; [split; [constructor|reflexivity]|].
  inversion HN as [|? ? Hp HN']; subst. unfold file_value, full_values in *. cbn [filter_map] in *.
  destruct p as [e|n a|n a body close]; cbn [part_value] in HV.
  - destruct (IH HN' HV) as [A1 A2]. split; [constructor; assumption|exact A2].
  - inversion HV; subst. destruct (IH HN' H2) as [A1 A2]. split; [constructor; [exact I|assumption]|exact A2].
  - inversion HV as [|? ? Hd HV']; subst. destruct (IH HN' HV') as [A1 A2].
    destruct (changeset_value norm a body) as [d|] eqn:Ed; [|congruence].
    destruct (changeset_value_parts _ _ _ _ Ed) as (Ep & Ei & Es).
    split; [constructor; [split; [exact Ep|congruence]|assumption]|].
    cbn [flat_map tr_value map]. rewrite Ei. unfold bad_tags, good_tags.
    destruct (sequence_good _ _ _ Es) as [G1 G2]. rewrite G1, G2. cbn [repeat app]. now f_equal.
Qed.

End Reader.
