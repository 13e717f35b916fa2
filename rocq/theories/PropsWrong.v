(** C122: files of another format. *)
From Coq Require Import String ZArith List Bool Lia.
From Coq Require Import ZifyBool ZifyNat.
From Verif Require Import Base Utf8 Obj SpecIter XmlToken XmlRead SpecXmlDoc.
From Verif Require Import PbWire PbMsg PbfRead PbfFrame.
From Verif Require Import Changesets SpecChangeset QuickXml Bz2 PropsDump.
Import ListNotations.
Open Scope Z_scope.

(** ** Specification *)

(** No call returns anything but the first, which panics. *)
Definition panics_at_once {St A} (next : St -> outcome (option A * St)) (s : St) : Prop := Runs next s [] Panic.

(** White space of XML. *)
Definition xml_space (c : Z) : Prop := c = 32 \/ c = 9 \/ c = 10 \/ c = 13.

(** The trusted behaviour of MultiBzDecoder on a file that does not begin as a bzip2
    stream does, with BZh: nothing, and then an error. *)
Definition checks_magic (dec : decoder) : Prop := forall b, firstn 3 b <> lit "BZh" -> dec b = ([], false).

(** ** Proof *)

Lemma trun_err attr_ws s : forall p, p_mode p = MErr -> trun attr_ws p s = p.
Proof.
  induction s as [|c s IH]; intros p H; [reflexivity|]. unfold trun in *. cbn [fold_left].
  assert (E : tstep attr_ws p c = p).
  { unfold tstep. rewrite H. destruct (negb (xml_char c)); [|reflexivity]. destruct p; cbn in *. now subst. }
  rewrite E. now apply IH.
Qed.
Lemma no_xml attr_ws c s : 0 <= c < 128 -> c <> 60 -> ~ xml_space c -> trun attr_ws tstart (c :: s) = P MErr [] false [EOther []].
Proof.
  intros Hc H1 H2. unfold trun. cbn [fold_left].
  assert (E : tstep attr_ws tstart c = P MErr [] false [EOther []]).
  { unfold tstep. cbn [tstart p_mode p_stack]. destruct (negb (xml_char c)); [reflexivity|].
    replace (c =? 60) with false by lia. replace (ws c) with false; [reflexivity|].
    symmetry. unfold ws. unfold xml_space in H2. lia. }
  rewrite E. now apply (trun_err attr_ws s (P MErr [] false [EOther []])).
Qed.
Lemma no_xml_items attr_ws c b : 0 <= c < 128 -> c <> 60 -> ~ xml_space c -> xml_items attr_ws (c :: b) = [IEv (EOther []); IErr].
Proof.
  intros Hc H1 H2. unfold xml_items, cut_items.
  assert (N : utf8_next (c :: b) = Some (c, b)) by (unfold utf8_next; cbn; replace (c <? 128) with true by lia; replace (0 <=? c) with true by lia; reflexivity).
  unfold utf8_decode, utf8_upto. cbn [length utf8_decode_fuel utf8_upto_fuel]. rewrite N.
  destruct (utf8_decode_fuel (length b) b); rewrite no_xml by assumption; reflexivity.
Qed.
Lemma cut_nothing attr_ws : cut_items attr_ws [] = [IEv (EOther []); IErr].
Proof. reflexivity. Qed.
Lemma err_items : panics_at_once xml_next [IEv (EOther []); IErr] /\ panics_at_once osc_next [IEv (EOther []); IErr].
Proof. split; apply Runs_panic; reflexivity. Qed.

(** ** C122 *)

(** The XML readers on bzip2 and PBF files, and on anything else that begins with an
    ASCII character other than < and white space. *)
Theorem C122_xml : forall attr_ws c b, 0 <= c < 128 -> c <> 60 -> ~ xml_space c ->
  panics_at_once xml_next (xml_items attr_ws (c :: b)) /\ panics_at_once osc_next (xml_items attr_ws (c :: b)).
Proof. intros aw c b Hc H1 H2. rewrite no_xml_items by assumption. exact err_items. Qed.
Print Assumptions C122_xml.

Lemma no_pbf rt c b : Forall byte b -> (3 <= length b)%nat -> Z.of_nat (length b) < c * 2^24 -> next_blob rt (c :: b) = Panic.
Proof.
  intros Hb H3 HL. destruct b as [|b1 [|b2 [|b3 r]]]; cbn [length] in H3; try lia.
  unfold next_blob. cbn [next_blob_fuel length read_u32_be].
  apply Forall_cons_iff in Hb as [B1 Hb]. apply Forall_cons_iff in Hb as [B2 Hb]. apply Forall_cons_iff in Hb as [B3 Hb].
  unfold byte in *. cbn [length] in HL. unfold read_exact, take.
  replace (_ <? 0) with false by lia. replace (_ <? ((c * 256 + b1) * 256 + b2) * 256 + b3) with true by lia. reflexivity.
Qed.

(** The PBF readers on XML and bzip2 files, which begin with the characters 60 and 66, of less
    than 960 MB, and on any file that is shorter than its first byte times 2^24. *)
Theorem C122_pbf : forall rt chk inflate flt c b, Forall byte b -> (3 <= length b)%nat -> Z.of_nat (length b) < c * 2^24 ->
  panics_at_once (s_next rt chk inflate) (SReader (c :: b) [] flt)
  /\ panics_at_once (a_next rt chk inflate) (c :: b, [])
  /\ panics_at_once (p_next rt chk inflate) (c :: b, []).
Proof.
  intros rt chk inflate flt c b Hb H3 HL. pose proof (no_pbf rt c b Hb H3 HL) as N. repeat split; apply Runs_panic.
  - unfold s_next. cbn [sr_src sr_buf sr_filter next_buffered refill]. rewrite N. reflexivity.
  - unfold a_next. cbn [refill]. rewrite N. reflexivity.
  - unfold p_next. cbn [fst snd next_buffered refill]. rewrite N. reflexivity.
Qed.
Print Assumptions C122_pbf.

(** What expects bzip2 (read_xml, and the changeset readers by file name) on anything else. *)
Theorem C122_bzip2 : forall dec attr_ws b, checks_magic dec -> firstn 3 b <> lit "BZh" ->
  panics_at_once xml_next (bz2_xml_items dec attr_ws b)
  /\ Replies (cs_step q_norm) (bz2_q_items dec b) [Error]
  /\ Replies (tr_step q_norm) (tr_new (bz2_q_items dec b)) [Error].
Proof.
  intros dec aw b M H. unfold bz2_xml_items, bz2_q_items. rewrite (M b H). rewrite cut_nothing. split; [exact (proj1 err_items)|].
  change (q_items_io []) with [QErr].
  split.
  - eapply Replies_error; [exists 1%nat; reflexivity|]. eapply Replies_end. exists 1%nat. reflexivity.
  - eapply Replies_error; [reflexivity|]. eapply Replies_end. reflexivity.
Qed.
Print Assumptions C122_bzip2.

(** Between the kinds of XML nothing is noticed: a file of nodes is a changeset dump without
    changesets, and a changeset dump is a file without objects. *)
Theorem C122_kinds_refuted : exists t t', Replies (cs_step q_norm) (q_items (utf8 t)) []
  /\ (exists o, Runs xml_next (xml_items (fun c => c) (utf8 t)) [o] (Ret []))
  /\ Runs xml_next (xml_items (fun c => c) (utf8 t')) [] (Ret [])
  /\ (exists c, Replies (cs_step q_norm) (q_items (utf8 t')) [Item c]).
Proof.
  exists (lit "<osm><way id='1'></way></osm>"),
    (lit "<osm><changeset id='1' created_at='2020-01-01T00:00:00Z' open='false' num_changes='1' comments_count='0'></changeset></osm>").
  split; [|split; [|split]].
  - apply Replies_end with (s' := []). exists 20%nat. vm_compute. reflexivity.
  - eexists. eapply Runs_step; [vm_compute; reflexivity|]. apply Runs_end. vm_compute. reflexivity.
  - apply Runs_end. vm_compute. reflexivity.
  - eexists. eapply Replies_item; [exists 20%nat; vm_compute; reflexivity|]. eapply Replies_end. exists 20%nat. vm_compute. reflexivity.
Qed.
Print Assumptions C122_kinds_refuted.

(** XML, bzip2 and PBF files that meet the hypotheses; and a decoder (of a format in which
    BZh is followed by the data). *)
Definition toy_dec : decoder := fun b =>
  match b with
  | 66 :: 90 :: 104 :: r => (r, true)
  | _ => ([], false)
  end.
Example C122_ex :
  (exists c b, lit "BZh91AY" = c :: b /\ 0 <= c < 128 /\ c <> 60 /\ ~ xml_space c)
  /\ (exists c b, [0; 0; 0; 13; 10; 9] = c :: b /\ 0 <= c < 128 /\ c <> 60 /\ ~ xml_space c)
  /\ (exists c b, lit "<osm></osm>" = c :: b /\ Forall byte b /\ (3 <= length b)%nat /\ Z.of_nat (length b) < c * 2^24)
  /\ checks_magic toy_dec /\ firstn 3 (lit "<osm></osm>") <> lit "BZh".
Proof.
  split; [eexists _, _; split; [reflexivity|]; unfold xml_space; repeat split; vm_compute; intuition discriminate|].
  split; [eexists _, _; split; [reflexivity|]; unfold xml_space; repeat split; vm_compute; intuition discriminate|].
  split; [eexists _, _; split; [reflexivity|]; split; [vm_compute; repeat (constructor; [split; vm_compute; intuition discriminate|]); constructor|split; [cbn; lia|vm_compute; reflexivity]]|].
  split; [|discriminate].
  intros b H. destruct b as [|b0 [|b1 [|b2 r]]]; cbn [firstn] in H; unfold toy_dec; try reflexivity.
  all: repeat match goal with |- context [match ?x with _ => _ end] => is_var x; destruct x; try reflexivity end.
  exfalso. apply H. reflexivity.
Qed.
