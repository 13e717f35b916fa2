(** C108, C109: changeset dumps, in bytes.  [q_items b] is what quick-xml makes
    of a source with the bytes [b], [q_items_io b] what it makes of a source that
    fails after them, [q_norm] what it makes of a raw attribute value. *)
From Coq Require Import String ZArith List Bool Lia.
From Verif Require Import Base SpecNum Ints Utf8 Timestamp Obj SpecJson XmlToken Changesets QuickXml SpecDump DumpFacts DumpValue
  DumpCut SpecChangeset ChangesetFacts ChangesetTags ChangesetCut SpecDumpText DumpWrite PropsChangeset DumpReplies.
Import ListNotations.
Open Scope Z_scope.

(** ** C108 *)

(** Whatever the layout of a text - quotes of either kind, white space, comments,
    CDATA, processing instructions and references anywhere in the character data
    -, the replies of ChangesetReader on it are, one for one and in order, its
    changesets (an error for an element that is not a changeset), then the
    end. *)
Theorem C108_text : forall ps b, Forall wf_part ps -> text_of (events ps) b ->
  exists rs, Replies (cs_step q_norm) (q_items b) rs
    /\ Forall2 replies (file_value q_norm ps) rs
    /\ forall rs', Replies (cs_step q_norm) (q_items b) rs' -> rs' = rs.
Proof.
  intros ps b Hw Ht. rewrite (text_items _ _ Ht), <- file_events. now apply C47_every_changeset.
Qed.
Print Assumptions C108_text.

(** The same for the tag reader: the id and the tags of each changeset that is
    not an empty element. *)
Theorem C108_tag_reader : forall ps b, Forall wf_part ps -> text_of (events ps) b ->
  Forall (fun p => match p with Noise e => not_about "tag" e | _ => True end) ps ->
  Forall (fun d => d <> None) (file_value q_norm ps) ->
  Replies (tr_step q_norm) (tr_new (q_items b)) (map (fun d => Item (cs_id d, cs_tags d)) (full_values q_norm ps)).
Proof.
  intros ps b Hw Ht Hn Hv. rewrite (text_items _ _ Ht), <- file_events. now apply C49_tag_reader_agrees.
Qed.
Print Assumptions C108_tag_reader.

(** The value of an attribute: exactly the ways of spelling a text, with named,
    decimal and hexadecimal references, give that text; anything else is an error. *)
Theorem C108_values : forall raw s, q_norm raw = Some s <-> exists v, valid_str v /\ raw = utf8 v /\ spelled v s.
Proof. exact norm_exact. Qed.
Print Assumptions C108_values.

(** A dump of any changesets is read back: by ChangesetReader as the same
    changesets with their tags as maps, by the tag reader as their ids and
    tags. *)
Theorem C108_dump : forall ds, Forall dumpable ds ->
  exists cs, Replies (cs_step q_norm) (q_items (dump ds)) (map Item cs)
    /\ Forall2 as_map ds cs
    /\ (forall rs, Replies (cs_step q_norm) (q_items (dump ds)) rs -> rs = map Item cs)
    /\ Replies (tr_step q_norm) (tr_new (q_items (dump ds))) (map (fun d => Item (cs_id d, cs_tags d)) ds).
Proof.
  intros ds H.
  destruct (C108_text (dump_parts ds) (dump ds) (dump_wf ds) (dump_text_of ds H)) as (rs & A & B & C).
  rewrite dump_values in B by exact H.
  assert (X : exists cs, rs = map Item cs /\ Forall2 as_map ds cs).
  { clear -B. revert rs B. induction ds as [|d ds IH]; intros rs B; inversion B; subst.
    - exists []. split; [reflexivity|constructor].
    - destruct y as [c| |]; cbn [replies] in *; try contradiction.
      destruct (IH _ H3) as (cs & -> & HC). exists (c :: cs). split; [reflexivity|constructor; assumption]. }
  destruct X as (cs & -> & HC). exists cs. split; [exact A|]. split; [exact HC|]. split; [exact C|].
  replace ds with (full_values q_norm (dump_parts ds)) at 2.
  - apply C108_tag_reader; [apply dump_wf|now apply dump_text_of| |].
    + unfold dump_parts. constructor; [exact I|]. constructor; [discriminate|]. apply Forall_app. split.
      * clear. induction ds as [|d ds IH]; [constructor|]. constructor; [exact I|]. constructor; [exact I|exact IH].
      * constructor; [exact I|]. constructor; [discriminate|constructor].
    + rewrite dump_values by exact H. apply Forall_map. apply Forall_forall. intros; discriminate.
  - unfold full_values, dump_parts. cbn [app filter_map].
    assert (E : forall tl, filter_map (fun p => match p with CFull _ a body _ => changeset_value q_norm a body | _ => None end)
                  (flat_map dump_part ds ++ tl)
                = ds ++ filter_map (fun p => match p with CFull _ a body _ => changeset_value q_norm a body | _ => None end) tl).
    { intros tl. clear -H. induction H as [|d ds Hd _ IH]; [reflexivity|].
      cbn [flat_map dump_part app filter_map]. rewrite dump_value by exact Hd. now rewrite IH. }
    rewrite E. cbn. apply app_nil_r.
Qed.
Print Assumptions C108_dump.

(** A text with an XML declaration, quotes of both kinds, an empty changeset with
    a namespace prefix, a comment that contains a tag, CDATA, references in an
    attribute value, white space in tags, and an element without content. *)
Definition ex_dump : bytes := lit "<?xml version='1.0'?>
<osm license=""x""><bound box='-90,""-180""'/>
 <c:changeset id='1' created_at=""2020-01-01T00:00:00Z"" open='true' num_changes='0' comments_count='0'/>
 <changeset id = ""2"" created_at=""2020-01-01T00:00:00Z"" closed_at='t' open=""false"" user=""&lt;&#38;&quot;""
   uid=""-7"" min_lat=""1.5"" num_changes=""3"" comments_count=""1"">
  <!-- <tag k='no' v='no'/> > --><tag k=""comment"" v=""a > b""/><![CDATA[<tag/>]]>&amp;<tag k='k' v='v' ></tag>
 </changeset >
 <changeset id='3'/>
</osm>
".
Example C108_ex : map (fun r => match r with Done (Item c, _) => Some (cs_id c, cs_user c, cs_tags c) | _ => None end)
    [next_changeset q_norm 100 (q_items ex_dump);
     match next_changeset q_norm 100 (q_items ex_dump) with Done (_, s) => next_changeset q_norm 100 s | Out => Out end]
  = [Some (1, None, []);
     Some (2, Some (lit "<&"""), [(lit "comment", lit "a > b"); (lit "k", lit "v")])].
Proof. vm_compute. reflexivity. Qed.

Definition ex_changeset : changeset :=
  CS 7 (ISOString (lit "2020-01-01T00:00:00Z")) None true (Some (-3)) (Some [60; 228; 34])
    [(lit "comment", [9; 38; 119070]); (lit "k", [])] 5 0.
Example C108_dump_ex : Forall dumpable [ex_changeset; ex_changeset]
  /\ exists rest, next_changeset q_norm 100 (q_items (dump [ex_changeset; ex_changeset])) = Done (Item ex_changeset, rest).
Proof.
  split; [|eexists; vm_compute; reflexivity].
  assert (H : dumpable ex_changeset).
  { unfold dumpable. cbn. unfold in_u32, in_i64, in_u64, valid_str.
    repeat match goal with |- _ /\ _ => split end; try exact I; try lia;
    repeat (apply Forall_cons || apply Forall_nil || (cbn; split) || (unfold scalar; cbn; lia)). }
  constructor; [exact H|constructor; [exact H|constructor]].
Qed.

(** ** C109 *)

(** How the iteration of ChangesetReader goes on after some replies: the end,
    one error and then the end, or a call that does not return. *)
Inductive ending := Clean | Failed | Hangs.
Definition goes (items : list qitem) (rs : list (reply changeset)) (x : ending) : Prop :=
  match x with
  | Clean => Replies (cs_step q_norm) items rs
  | Failed => Replies (cs_step q_norm) items (rs ++ [Error])
  | Hangs => exists s, Calls (cs_step q_norm) items rs s /\ forall fuel, next_changeset q_norm fuel s = Out
  end.

(** Every beginning [b1] of a text of good changesets ends either between
    changesets or inside one, and either in character data or inside a markup.
    All complete changesets are returned.  Then: between changesets, the end, or
    an error if the cut is inside a markup; inside a changeset, an error if the
    cut is inside a markup, and otherwise the next call does not return. *)
Theorem C109_cut : forall ps b b1 b2, Forall wf_part ps -> text_of (events ps) b ->
  Forall (fun d => d <> None) (file_value q_norm ps) -> b = b1 ++ b2 ->
  exists ps1 ps2 (frag : bool) rs, ps = ps1 ++ ps2 /\ Forall2 replies (file_value q_norm ps1) rs
    /\ ((begun (events ps1) frag b1 /\ goes (q_items b1) rs (if frag then Failed else Clean))
        \/ exists n a body1 body2 close ps3, ps2 = CFull n a (body1 ++ body2) close :: ps3
             /\ begun (events ps1 ++ QStart n a :: body1) frag b1
             /\ goes (q_items b1) rs (if frag then Failed else Hangs)).
Proof.
  intros ps b b1 b2 Hw Ht Hv E. destruct (text_begins _ _ _ _ Ht E) as (evs & rest & frag & El & Hb & Hq).
  destruct (events_cut ps evs rest El) as (ps1 & ps2 & -> & H). exists ps1, ps2, frag.
  apply Forall_app in Hw as [Hw1 Hw2].
  destruct H as [->|(n & a & body1 & body2 & close & ps3 & -> & ->)].
  - rewrite <- file_events in Hq. destruct frag.
    + destruct (parts_then q_norm ps1 _ _ Hw1 (error_replies q_norm)) as (rs & A & B).
      exists rs. split; [reflexivity|]. split; [exact B|]. left. split; [exact Hb|]. cbn [goes]. now rewrite Hq.
    + destruct (parts_then q_norm ps1 _ _ Hw1 (end_replies q_norm)) as (rs & A & B).
      exists rs. split; [reflexivity|]. split; [exact B|]. left. split; [exact Hb|]. cbn [goes]. rewrite Hq. rewrite app_nil_r in A |- *. now rewrite app_nil_r in A.
  - apply file_value_in in Hv. inversion Hw2 as [|? ? Hp _]; subst.
    rewrite map_app, <- file_events, <- app_assoc in Hq. cbn [map app] in Hq. destruct frag.
    + destruct (parts_then q_norm ps1 _ _ Hw1 (open_error q_norm _ _ _ _ _ Hp Hv)) as (rs & A & B).
      exists rs. split; [reflexivity|]. split; [exact B|]. right. exists n, a, body1, body2, close, ps3.
      split; [reflexivity|]. split; [exact Hb|]. cbn [goes]. now rewrite Hq.
    + destruct (parts_stuck q_norm ps1 _ Hw1 (open_stuck q_norm _ _ _ _ _ Hp Hv)) as (rs & s & A & B & C).
      exists rs. split; [reflexivity|]. split; [exact C|]. right. exists n, a, body1, body2, close, ps3.
      split; [reflexivity|]. split; [exact Hb|]. cbn [goes]. exists s. split; [|exact B]. rewrite Hq. now rewrite app_nil_r.
Qed.
Print Assumptions C109_cut.

(** A source that fails with an I/O error is always noticed: after the complete
    changesets there is exactly one error, then the end. *)
Theorem C109_failing : forall ps b b1 b2, Forall wf_part ps -> text_of (events ps) b ->
  Forall (fun d => d <> None) (file_value q_norm ps) -> b = b1 ++ b2 ->
  exists ps1 ps2 rs, ps = ps1 ++ ps2 /\ Forall2 replies (file_value q_norm ps1) rs
    /\ (begun_io (events ps1) b1
        \/ exists n a body1 body2 close ps3, ps2 = CFull n a (body1 ++ body2) close :: ps3
             /\ begun_io (events ps1 ++ QStart n a :: body1) b1)
    /\ goes (q_items_io b1) rs Failed.
Proof.
  intros ps b b1 b2 Hw Ht Hv E. destruct (text_fails _ _ _ _ Ht E) as (evs & rest & El & Hb & Hq).
  destruct (events_cut ps evs rest El) as (ps1 & ps2 & -> & H). exists ps1, ps2.
  apply Forall_app in Hw as [Hw1 Hw2].
  destruct H as [->|(n & a & body1 & body2 & close & ps3 & -> & ->)].
  - rewrite <- file_events in Hq.
    destruct (parts_then q_norm ps1 _ _ Hw1 (error_replies q_norm)) as (rs & A & B).
    exists rs. split; [reflexivity|]. split; [exact B|]. split; [now left|]. cbn [goes]. now rewrite Hq.
  - apply file_value_in in Hv. inversion Hw2 as [|? ? Hp _]; subst.
    rewrite map_app, <- file_events, <- app_assoc in Hq. cbn [map app] in Hq.
    destruct (parts_then q_norm ps1 _ _ Hw1 (open_error q_norm _ _ _ _ _ Hp Hv)) as (rs & A & B).
    exists rs. split; [reflexivity|]. split; [exact B|]. split; [right; now exists n, a, body1, body2, close, ps3|].
    cbn [goes]. now rewrite Hq.
Qed.
Print Assumptions C109_failing.

(** The tag reader always returns: after the complete changesets the end, or an
    error and the end if the cut is inside a markup or the source fails. *)
Theorem C109_tag_reader : forall ps b b1 b2, Forall wf_part ps -> text_of (events ps) b ->
  Forall (fun p => match p with Noise e => not_about "tag" e | _ => True end) ps ->
  Forall (fun d => d <> None) (file_value q_norm ps) -> b = b1 ++ b2 ->
  (exists ps1 ps2 (frag : bool), ps = ps1 ++ ps2
     /\ (begun (events ps1) frag b1
         \/ exists n a body1 body2 close ps3, ps2 = CFull n a (body1 ++ body2) close :: ps3
              /\ begun (events ps1 ++ QStart n a :: body1) frag b1)
     /\ Replies (tr_step q_norm) (tr_new (q_items b1))
          (map (fun d => Item (cs_id d, cs_tags d)) (full_values q_norm ps1) ++ if frag then [Error] else []))
  /\ (exists ps1 ps2, ps = ps1 ++ ps2
     /\ (begun_io (events ps1) b1
         \/ exists n a body1 body2 close ps3, ps2 = CFull n a (body1 ++ body2) close :: ps3
              /\ begun_io (events ps1 ++ QStart n a :: body1) b1)
     /\ Replies (tr_step q_norm) (tr_new (q_items_io b1))
          (map (fun d => Item (cs_id d, cs_tags d)) (full_values q_norm ps1) ++ [Error])).
Proof.
  assert (G : forall ps evs rest (frag : bool), Forall wf_part ps ->
    Forall (fun p => match p with Noise e => not_about "tag" e | _ => True end) ps ->
    Forall (fun d => d <> None) (file_value q_norm ps) -> events ps = evs ++ rest ->
    exists ps1 ps2, ps = ps1 ++ ps2 /\
      (evs = events ps1
       \/ exists n a body1 body2 close ps3, ps2 = CFull n a (body1 ++ body2) close :: ps3
            /\ evs = events ps1 ++ QStart n a :: body1)
      /\ Replies (tr_step q_norm) (tr_new (map QEv evs ++ if frag then [QErr] else []))
          (map (fun d => Item (cs_id d, cs_tags d)) (full_values q_norm ps1) ++ if frag then [Error] else [])).
  { intros ps evs rest frag Hw Hn Hv El. destruct (events_cut ps evs rest El) as (ps1 & ps2 & -> & H). exists ps1, ps2.
    split; [reflexivity|]. split; [exact H|].
    apply Forall_app in Hw as [Hw1 Hw2]. apply Forall_app in Hn as [Hn1 _].
    assert (Hv1 : Forall (fun d => d <> None) (file_value q_norm ps1)).
    { unfold file_value in Hv. rewrite filter_map_app in Hv. now apply Forall_app in Hv as [Hv1 _]. }
    destruct (tr_parts q_norm ps1 Hn1 Hv1) as [Hp1 Ep1]. rewrite <- Ep1. unfold tr_new.
    assert (T : forall cur t, Replies (tr_step q_norm) (TR cur t (if frag then [QErr] else [])) (if frag then [Error] else [])).
    { intros cur t. destruct frag; [apply tr_error|apply tr_end]. }
    destruct H as [->|(n & a & body1 & body2 & close & ps3 & -> & ->)].
    - rewrite <- file_events. now apply tr_file_then.
    - apply file_value_in in Hv. inversion Hw2 as [|? ? Hp _]; subst.
      rewrite map_app, <- file_events, <- app_assoc. cbn [map app].
      apply tr_file_then; [|assumption|assumption]. now apply tr_open with (body2 := body2) (close := close). }
  intros ps b b1 b2 Hw Ht Hn Hv E. split.
  - destruct (text_begins _ _ _ _ Ht E) as (evs & rest & frag & El & Hb & Hq).
    destruct (G ps evs rest frag Hw Hn Hv El) as (ps1 & ps2 & Ep & H & HR). exists ps1, ps2, frag.
    split; [exact Ep|]. rewrite Hq. split; [|exact HR].
    destruct H as [->|(n & a & body1 & body2 & close & ps3 & -> & ->)]; [now left|].
    right. now exists n, a, body1, body2, close, ps3.
  - destruct (text_fails _ _ _ _ Ht E) as (evs & rest & El & Hb & Hq).
    destruct (G ps evs rest true Hw Hn Hv El) as (ps1 & ps2 & Ep & H & HR). exists ps1, ps2.
    split; [exact Ep|]. rewrite Hq. split; [|exact HR].
    destruct H as [->|(n & a & body1 & body2 & close & ps3 & -> & ->)]; [now left|].
    right. now exists n, a, body1, body2, close, ps3.
Qed.
Print Assumptions C109_tag_reader.

(** For the dump of any changesets: whatever the cut, the changesets before it
    are returned as they are... *)
Theorem C109_dump : forall ds b1 b2, Forall dumpable ds -> dump ds = b1 ++ b2 ->
  exists ds1 ds2 cs x, ds = ds1 ++ ds2 /\ Forall2 as_map ds1 cs /\ goes (q_items b1) (map Item cs) x.
Proof.
  intros ds b1 b2 H E.
  destruct (C109_cut (dump_parts ds) (dump ds) b1 b2 (dump_wf ds) (dump_text_of ds H)) as (ps1 & ps2 & frag & rs & Ep & HV & HG).
  { rewrite dump_values by exact H. apply Forall_map. apply Forall_forall. intros; discriminate. }
  { exact E. }
  pose proof (dump_values ds H) as Hd. rewrite Ep in Hd. unfold file_value in Hd. rewrite filter_map_app in Hd.
  fold (file_value q_norm ps1) in Hd. fold (file_value q_norm ps2) in Hd.
  assert (X : exists ds1 ds2, ds = ds1 ++ ds2 /\ file_value q_norm ps1 = map Some ds1).
  { symmetry in Hd. exists (firstn (length (file_value q_norm ps1)) ds), (skipn (length (file_value q_norm ps1)) ds).
    split; [now rewrite firstn_skipn|]. rewrite <- firstn_map, Hd, firstn_app, Nat.sub_diag, firstn_all. cbn [firstn].
    now rewrite app_nil_r. }
  destruct X as (ds1 & ds2 & Eds & E1). rewrite E1 in HV.
  assert (X : exists cs, rs = map Item cs /\ Forall2 as_map ds1 cs).
  { clear -HV. revert rs HV. induction ds1 as [|d ds IH]; intros rs B; inversion B; subst.
    - exists []. split; [reflexivity|constructor].
    - destruct y as [c| |]; cbn [replies] in *; try contradiction.
      destruct (IH _ H3) as (cs & -> & HC). exists (c :: cs). split; [reflexivity|constructor; assumption]. }
  destruct X as (cs & -> & HC). exists ds1, ds2, cs.
  destruct HG as [[_ HG]|(n & a & body1 & body2 & close & ps3 & _ & _ & HG)].
  - exists (if frag then Failed else Clean). repeat split; assumption.
  - exists (if frag then Failed else Hangs). repeat split; assumption.
Qed.
Print Assumptions C109_dump.

(** ... and all three ways of going on occur. *)
Example C109_ex :
  let b := dump [ex_changeset; ex_changeset] in
  let n := length (dump [ex_changeset]) in
  (* after the white space that follows the first changeset *)
  next_changeset q_norm 100 (skipn 8 (q_items (firstn (n - 6) b))) = Done (End, [])
  (* after the first byte of the second changeset *)
  /\ next_changeset q_norm 100 (skipn 8 (q_items (firstn (n - 5) b))) = Done (Error, [])
  (* after the start tag of the second changeset *)
  /\ next_changeset q_norm 1000 (skipn 8 (q_items (firstn (n + 122) b))) = Out
  /\ next_changeset q_norm 1000 (skipn 8 (q_items_io (firstn (n + 122) b))) = Done (Error, []).
Proof. vm_compute. repeat split; reflexivity. Qed.
