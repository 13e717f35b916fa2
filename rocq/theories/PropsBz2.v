(** C110: compressed files.  [stream z d]: the bytes [z] are one bzip2 stream
    with the data [d]; the theorems hold for every such format and every decoder
    that decodes it. *)
From Coq Require Import String ZArith List Bool Lia.
From Coq Require Import ZifyBool ZifyNat.
From Verif Require Import Base SpecNum Ints Utf8 Timestamp Obj SpecJson XmlToken Changesets QuickXml SpecDump DumpFacts
  SpecChangeset ChangesetFacts ChangesetTags ChangesetCut SpecDumpText PropsChangeset DumpReplies PropsDump Bz2
  SpecXml XmlWriteFacts XmlRead SpecXmlRead SpecIter XmlRound XmlReadBack XmlTrunc XmlCut PropsWriter PropsXml PropsXmlCut.
Import ListNotations.
Open Scope Z_scope.

Lemma concat_cut {A} (zs : list (list A)) : forall z1 z2, concat zs = z1 ++ z2 -> z2 <> [] ->
  exists za z zb u w, zs = za ++ z :: zb /\ z = u ++ w /\ w <> [] /\ z1 = concat za ++ u.
Proof.
  induction zs as [|z zs IH]; intros z1 z2 E H.
  - cbn in E. symmetry in E. apply app_eq_nil in E as [_ E]. easy.
  - cbn [concat] in E. destruct (app_cut _ _ _ _ E) as [(e & -> & E')|(e & Ez & He)].
    + destruct (IH _ _ E' H) as (za & y & zb & u & w & -> & -> & Hw & ->).
      exists (z :: za), (u ++ w), zb, u, w. repeat split; [exact Hw|]. cbn [concat]. now rewrite app_assoc.
    + exists [], z, zs, z1, e. repeat split; assumption.
Qed.

(** What a decoder makes of a part of a file. *)
Lemma decodes_cut stream dec zs ds z1 z2 : decodes stream dec -> Forall2 stream zs ds ->
  concat zs = z1 ++ z2 -> z2 <> [] ->
  exists d1 d2, concat ds = d1 ++ d2 /\
    (dec z1 = (d1, false)
     \/ dec z1 = (d1, true) /\ exists j, (0 < j < length zs)%nat /\ z1 = concat (firstn j zs) /\ d1 = concat (firstn j ds)).
Proof.
  intros [H1 H2] HF E Hz. destruct (concat_cut zs z1 z2 E Hz) as (za & z & zb & u & w & -> & -> & Hw & ->).
  destruct (Forall2_app_inv_l _ _ HF) as (da & db & Ha & Hb & ->).
  inversion Hb as [|? d ? dr Hd Hr]; subst. rewrite concat_app. cbn [concat].
  destruct u as [|c u], za as [|z0 za].
  - destruct (H2 [] [] [] w d (Forall2_nil _) Hd Hw (or_introl eq_refl)) as (d1 & d2 & -> & Ed).
    inversion Ha; subst. exists d1, (d2 ++ concat dr). cbn [concat app] in *. split; [now rewrite <- app_assoc|]. now left.
  - exists (concat da), (d ++ concat dr). split; [reflexivity|]. right.
    rewrite app_nil_r. split; [now apply H1|]. exists (length (z0 :: za)).
    assert (El : length (z0 :: za) = length da) by (clear -Ha; induction Ha; cbn [length]; congruence).
    split; [rewrite app_length; cbn [length]; lia|]. split.
    + now rewrite firstn_app, Nat.sub_diag, firstn_all, app_nil_r.
    + now rewrite El, firstn_app, Nat.sub_diag, firstn_all, app_nil_r.
  - destruct (H2 [] [] (c :: u) w d (Forall2_nil _) Hd Hw (or_introl eq_refl)) as (d1 & d2 & -> & Ed).
    inversion Ha; subst. exists d1, (d2 ++ concat dr). cbn [concat app] in *. split; [now rewrite <- app_assoc|]. now left.
  - destruct (H2 (z0 :: za) da (c :: u) w d Ha Hd Hw) as (d1 & d2 & -> & Ed); [right; discriminate|].
    exists (concat da ++ d1), (d2 ++ concat dr). split; [now rewrite <- !app_assoc|]. now left.
Qed.

(** ** Changesets *)

(** A complete file, of one stream or of several that need not begin or end with
    a changeset, gives its changesets. *)
Theorem C110_changesets : forall stream dec zs ds ps, decodes stream dec -> Forall2 stream zs ds -> zs <> [] ->
  Forall wf_part ps -> text_of (events ps) (concat ds) ->
  exists rs, Replies (cs_step q_norm) (bz2_q_items dec (concat zs)) rs
    /\ Forall2 replies (file_value q_norm ps) rs
    /\ forall rs', Replies (cs_step q_norm) (bz2_q_items dec (concat zs)) rs' -> rs' = rs.
Proof.
  intros stream dec zs ds ps [H1 _] HF Hz Hw Ht. unfold bz2_q_items. rewrite (H1 zs ds HF Hz). now apply C108_text.
Qed.
Print Assumptions C110_changesets.

(** A file that ends early is noticed unless it ends exactly between two
    streams: all changesets that are complete in the data delivered are
    returned, then one error, then the end. *)
Theorem C110_changesets_cut : forall stream dec zs ds ps z1 z2, decodes stream dec -> Forall2 stream zs ds ->
  Forall wf_part ps -> text_of (events ps) (concat ds) -> Forall (fun d => d <> None) (file_value q_norm ps) ->
  concat zs = z1 ++ z2 -> z2 <> [] ->
  (forall j, (0 < j < length zs)%nat -> z1 <> concat (firstn j zs)) ->
  exists ps1 ps2 rs b1 b2, ps = ps1 ++ ps2 /\ Forall2 replies (file_value q_norm ps1) rs
    /\ concat ds = b1 ++ b2 /\ dec z1 = (b1, false)
    /\ (begun_io (events ps1) b1
        \/ exists n a body1 body2 close ps3, ps2 = CFull n a (body1 ++ body2) close :: ps3
             /\ begun_io (events ps1 ++ QStart n a :: body1) b1)
    /\ goes (bz2_q_items dec z1) rs Failed.
Proof.
  intros stream dec zs ds ps z1 z2 Hd HF Hw Ht Hv E Hz Hn.
  destruct (decodes_cut stream dec zs ds z1 z2 Hd HF E Hz) as (b1 & b2 & Eb & [Ed|(_ & j & Hj & Ez & _)]); [|now elim (Hn j Hj)].
  destruct (C109_failing ps (concat ds) b1 b2 Hw Ht Hv Eb) as (ps1 & ps2 & rs & A & B & C & D).
  exists ps1, ps2, rs, b1, b2. repeat (split; [assumption|]). unfold bz2_q_items. now rewrite Ed.
Qed.
Print Assumptions C110_changesets_cut.

(** Between two streams the reader sees a shorter text that simply ends (C109_cut
    says what follows from that). *)
Theorem C110_changesets_boundary : forall stream dec zs ds j, decodes stream dec -> Forall2 stream zs ds ->
  (0 < j <= length zs)%nat -> bz2_q_items dec (concat (firstn j zs)) = q_items (concat (firstn j ds)).
Proof.
  intros stream dec zs ds j [H1 _] HF Hj. unfold bz2_q_items.
  rewrite (H1 (firstn j zs) (firstn j ds)); [reflexivity| |].
  - clear -HF. revert j. induction HF; intros [|j]; cbn [firstn]; constructor; auto.
  - destruct zs, j; cbn [firstn length] in *; [lia|lia|lia|discriminate].
Qed.
Print Assumptions C110_changesets_boundary.

(** The tag reader on a complete file and on one that ends inside a stream. *)
Theorem C110_tag_reader : forall stream dec zs ds ps, decodes stream dec -> Forall2 stream zs ds -> zs <> [] ->
  Forall wf_part ps -> text_of (events ps) (concat ds) ->
  Forall (fun p => match p with Noise e => not_about "tag" e | _ => True end) ps ->
  Forall (fun d => d <> None) (file_value q_norm ps) ->
  Replies (tr_step q_norm) (tr_new (bz2_q_items dec (concat zs)))
    (map (fun d => Item (cs_id d, cs_tags d)) (full_values q_norm ps))
  /\ forall z1 z2, concat zs = z1 ++ z2 -> z2 <> [] ->
     (forall j, (0 < j < length zs)%nat -> z1 <> concat (firstn j zs)) ->
     exists ps1 ps2 b1 b2, ps = ps1 ++ ps2 /\ concat ds = b1 ++ b2 /\ dec z1 = (b1, false)
       /\ (begun_io (events ps1) b1
           \/ exists n a body1 body2 close ps3, ps2 = CFull n a (body1 ++ body2) close :: ps3
                /\ begun_io (events ps1 ++ QStart n a :: body1) b1)
       /\ Replies (tr_step q_norm) (tr_new (bz2_q_items dec z1))
            (map (fun d => Item (cs_id d, cs_tags d)) (full_values q_norm ps1) ++ [Error]).
Proof.
  intros stream dec zs ds ps Hd HF Hz Hw Ht Hn Hv. split.
  - unfold bz2_q_items. rewrite (proj1 Hd zs ds HF Hz). now apply C108_tag_reader.
  - intros z1 z2 E Hz2 Hj.
    destruct (decodes_cut stream dec zs ds z1 z2 Hd HF E Hz2) as (b1 & b2 & Eb & [Ed|(_ & j & Hj' & Ez & _)]); [|now elim (Hj j Hj')].
    destruct (C109_tag_reader ps (concat ds) b1 b2 Hw Ht Hn Hv Eb) as (_ & ps1 & ps2 & A & B & C).
    exists ps1, ps2, b1, b2. repeat (split; [assumption|]). unfold bz2_q_items. now rewrite Ed.
Qed.
Print Assumptions C110_tag_reader.

(** ** OSM XML *)

Theorem C110_xml : forall stream dec zs ds, decodes stream dec -> Forall2 stream zs ds -> zs <> [] ->
  forall attr_ws, normalises attr_ws -> forall hs os, good_headers attr_ws hs -> Forall (xml_object attr_ws) os ->
  concat ds = utf8 (xml_document hs os) ->
  Runs xml_next (bz2_xml_items dec attr_ws (concat zs)) (map as_read os) (Ret []).
Proof.
  intros stream dec zs ds [H1 _] HF Hz aw Hw hs os Hh Ho E. unfold bz2_xml_items. rewrite (H1 zs ds HF Hz), E.
  rewrite xml_items_document by easy. eapply runs_items; [| |exact Ho]; unfold xml_pre; repeat constructor.
Qed.
Print Assumptions C110_xml.

(** A file that ends early: the objects that are complete in the data delivered
    are returned, then the reader panics - wherever the file ends, unless what is
    missing decodes to nothing. *)
Theorem C110_xml_cut : forall stream dec zs ds z1 z2, decodes stream dec -> Forall2 stream zs ds ->
  concat zs = z1 ++ z2 -> z2 <> [] ->
  forall attr_ws, normalises attr_ws -> forall hs os, good_headers attr_ws hs -> Forall (xml_object attr_ws) os ->
  concat ds = utf8 (xml_document hs os) ->
  dec z1 = (utf8 (xml_document hs os), true)
  \/ forall j, arrived (xml_opening hs) os (length (fst (dec z1))) j ->
     Runs xml_next (bz2_xml_items dec attr_ws z1) (map as_read (firstn j os)) Panic.
Proof.
  intros stream dec zs ds z1 z2 Hd HF E Hz aw Hw hs os Hh Ho Ed.
  destruct (decodes_cut stream dec zs ds z1 z2 Hd HF E Hz) as (b1 & b2 & Eb & H). rewrite Ed in Eb.
  assert (Ef : firstn (length b1) (utf8 (xml_document hs os)) = b1).
  { rewrite Eb, firstn_app, Nat.sub_diag, firstn_all. cbn [firstn]. apply app_nil_r. }
  unfold bz2_xml_items. destruct H as [Ez|[Ez _]]; rewrite Ez; cbn [fst].
  - right. intros j Hj. rewrite <- Ef. apply C107_xml; try assumption.
  - destruct b2 as [|c b2].
    + left. rewrite app_nil_r in Eb. now rewrite Eb.
    + right. intros j Hj. rewrite <- Ef. apply C60_truncated_xml; try assumption.
      rewrite Eb, app_length. cbn [length]. lia.
Qed.
Print Assumptions C110_xml_cut.

(** ** An example of a format and its decoder *)

(** A stream is data without the byte 0, then that byte. *)
Definition ex_stream (z d : bytes) : Prop := ~ In 0 d /\ z = d ++ [0].
Fixpoint ex_dec_from (open : bool) (z : bytes) : bytes * bool :=
  match z with
  | [] => ([], negb open)
  | c :: r => if c =? 0 then ex_dec_from false r
              else let '(b, ok) := ex_dec_from true r in (c :: b, ok)
  end.
Definition ex_dec : decoder := ex_dec_from true.

Lemma ex_dec_stream d : ~ In 0 d -> forall o r,
  ex_dec_from o (d ++ 0 :: r) = let '(b, ok) := ex_dec_from false r in (d ++ b, ok).
Proof.
  induction d as [|c d IH]; intros H o r.
  - cbn. now destruct (ex_dec_from false r).
  - cbn [app ex_dec_from]. destruct (c =? 0) eqn:E; [exfalso; apply H; left; lia|].
    rewrite IH by (intros X; apply H; now right). now destruct (ex_dec_from false r).
Qed.
Lemma ex_dec_streams zs ds : Forall2 ex_stream zs ds -> forall o r,
  (zs = [] -> o = false) ->
  ex_dec_from o (concat zs ++ r) = let '(b, ok) := ex_dec_from false r in (concat ds ++ b, ok).
Proof.
  induction 1 as [|z d zs ds [Hd ->] _ IH]; intros o r Ho.
  - cbn [concat app]. rewrite (Ho eq_refl). now destruct (ex_dec_from false r).
  - cbn [concat]. rewrite <- !app_assoc. cbn [app]. rewrite ex_dec_stream by exact Hd. rewrite IH by easy.
    destruct (ex_dec_from false r). now rewrite app_assoc.
Qed.
Lemma ex_dec_open u : ~ In 0 u -> forall o, u <> [] \/ o = true -> ex_dec_from o u = (u, false).
Proof.
  induction u as [|c u IH]; intros H o Ho.
  - destruct Ho as [Ho| ->]; [easy|reflexivity].
  - cbn [ex_dec_from]. destruct (c =? 0) eqn:E; [exfalso; apply H; left; lia|].
    rewrite IH; [reflexivity| |now right]. intros X. apply H. now right.
Qed.
Example C110_ex : decodes ex_stream ex_dec
  /\ ex_stream (dump [ex_changeset] ++ [0]) (dump [ex_changeset])
  /\ (exists rest, next_changeset q_norm 100 (bz2_q_items ex_dec (dump [ex_changeset] ++ [0])) = Done (Item ex_changeset, rest))
  /\ next_changeset q_norm 100 (bz2_q_items ex_dec (firstn 50 (dump [ex_changeset]))) = Done (Error, []).
Proof.
  split; [split|split; [|split]].
  - intros zs ds H Hz. destruct H as [|z d zs ds [Hd ->] H]; [easy|]. unfold ex_dec. cbn [concat].
    rewrite <- app_assoc. cbn [app]. rewrite ex_dec_stream by exact Hd.
    rewrite <- (app_nil_r (concat zs)), (ex_dec_streams zs ds H) by reflexivity. cbn [ex_dec_from negb]. now rewrite app_nil_r.
  - intros zs ds z1 z2 d H [Hd E] Hz Hor.
    assert (X : exists d2, d = z1 ++ d2).
    { destruct z2 as [|c z2 _] using rev_ind; [easy|]. rewrite app_assoc in E. apply app_inj_tail in E as [<- _]. now exists z2. }
    destruct X as [d2 ->]. exists z1, d2. split; [reflexivity|].
    assert (H0 : ~ In 0 z1) by (intros X; apply Hd, in_or_app; now left).
    unfold ex_dec. destruct Hor as [->|Hz1].
    + inversion H; subst. cbn [concat app]. apply ex_dec_open; [exact H0|now right].
    + destruct H as [|z d zs ds [Hd' ->] H].
      * cbn [concat app]. apply ex_dec_open; [exact H0|now right].
      * cbn [concat]. rewrite <- !app_assoc. cbn [app]. rewrite ex_dec_stream by exact Hd'.
        rewrite (ex_dec_streams zs ds H) by reflexivity. rewrite (ex_dec_open z1 H0 false (or_introl Hz1)). reflexivity.
  - split; [|reflexivity]. vm_compute. intros Hx. repeat destruct Hx as [Hx|Hx]; try discriminate Hx. exact Hx.
  - eexists. vm_compute. reflexivity.
  - vm_compute. reflexivity.
Qed.
