(** C118: what the PBF readers keep between calls. *)
From Coq Require Import String ZArith List Bool Lia.
From Verif Require Import Base Utf8 Timestamp Obj PbWire PbMsg PbMsgFacts PbfRead SpecPbf SpecIter PbfFrame
  PropsPbfFile PropsPbf PropsFlow PropsPbfPos.
Import ListNotations.
Open Scope Z_scope.

(** ** Specification *)

(** [kept decode src left l]: [l] is the end, behind at least one object, of what
    [decode] gives for the data blob that ends where [left], the unread part of
    [src], begins. *)
Definition kept {A} (rt : pbrt) (decode : blob -> outcome (list A)) (src left : bytes) (l : list A) : Prop :=
  exists read frames b given, src = read ++ frames /\ next_blob rt frames = Ret (Some b, left) /\
    given <> [] /\ decode b = Ret (given ++ l).

(** Any calls on a PBFReader, in any order: the next object, a change of the
    filter (nodes(), ways(), relations()); with the filters set so far, the last
    one first (the first one of all lets everything through). *)
Inductive used (rt : pbrt) (chk : build) (inflate : bytes -> option bytes) (src : bytes) : list obj_filter -> s_reader -> Prop :=
| used_new : used rt chk inflate src [OF true true true] (s_new src)
| used_next flts s o s' : used rt chk inflate src flts s -> s_next rt chk inflate s = Ret (o, s') -> used rt chk inflate src flts s'
| used_filter flts s flt : used rt chk inflate src flts s -> used rt chk inflate src (flt :: flts) (s_set_filter flt s).

(** Calls of [next] alone, whatever they return. *)
Inductive called {St A} (next : St -> outcome (option A * St)) (s : St) : St -> Prop :=
| called_new : called next s s
| called_next s1 o s2 : called next s s1 -> next s1 = Ret (o, s2) -> called next s s2.

(** ** Proof *)

Lemma buf_kept {A} rt (decode : blob -> outcome (list A)) : forall n src o src' buf', (length src < n)%nat ->
  buf_next rt decode (src, []) = Ret (o, (src', buf')) ->
  match o with None => buf' = [] | Some _ => kept rt decode src src' buf' end.
Proof.
  induction n as [|n IH]; intros src o src' buf' Hn H; [lia|].
  rewrite buf_next_eq in H. destruct (next_blob rt src) as [[[b|] r]|] eqn:E; [| |discriminate]; cbn [obind] in H.
  - pose proof (next_blob_rest _ _ _ _ E) as L. pose proof E as E'. apply next_blob_suffix in E' as [u ->].
    destruct (decode b) as [[|a l]|] eqn:D; [| |discriminate]; cbn [obind] in H.
    + assert (L' : (length r < n)%nat) by lia. specialize (IH _ _ _ _ L' H). destruct o; [|exact IH].
      destruct IH as (rd & fr & b1 & g & -> & E1 & G & D1). exists (u ++ rd), fr, b1, g. rewrite app_assoc. easy.
    + injection H as <- <- <-. exists [], (u ++ r), b, [a]. easy.
  - now injection H as <- _ <-.
Qed.

Lemma kept_tail {A} rt (decode : blob -> outcome (list A)) src left a l :
  kept rt decode src left (a :: l) -> kept rt decode src left l.
Proof.
  intros (rd & fr & b & g & E & N & G & D). exists rd, fr, b, (g ++ [a]). rewrite <- app_assoc.
  split; [exact E|]. split; [exact N|]. split; [now destruct g|exact D].
Qed.

Lemma kept_more {A} rt (decode : blob -> outcome (list A)) u src left l :
  kept rt decode src left l -> kept rt decode (u ++ src) left l.
Proof. intros (rd & fr & b & g & -> & H). exists (u ++ rd), fr, b, g. now rewrite app_assoc. Qed.

Lemma buf_kept_step {A} rt (decode : blob -> outcome (list A)) src s0 buf o s1 buf' :
  (exists u, src = u ++ s0) -> (forall a l, buf = a :: l -> kept rt decode src s0 buf) ->
  buf_next rt decode (s0, buf) = Ret (o, (s1, buf')) ->
  (exists u, src = u ++ s1) /\ (buf' = [] \/ kept rt decode src s1 buf').
Proof.
  intros [u ->] K H. split.
  - apply (buf_suffix _ _ (S (length s0))) in H as ((v & ->) & _); [|lia]. exists (u ++ v). now rewrite app_assoc.
  - destruct buf as [|a l].
    + apply (buf_kept _ _ (S (length s0))) in H; [|lia]. destruct o; [|now left]. right. now apply kept_more.
    + injection H as <- <- <-. right. eapply kept_tail, K. reflexivity.
Qed.

(** ** C118 *)

(** What a PBFReader holds after any calls at all, on any source: either nothing
    or the end of the block it read last, as one of the filters set so far lets it
    through.  The filter in force is the one set last. *)
Theorem C118_kept : forall rt chk inflate src flts s, used rt chk inflate src flts s ->
  (exists read, src = read ++ sr_src s) /\ hd_error flts = Some (sr_filter s) /\
  (sr_buf s = [] \/ exists flt, In flt flts /\ kept rt (s_blob rt chk inflate flt) src (sr_src s) (sr_buf s)).
Proof.
  intros rt chk inflate src flts s H. induction H as [|flts s o s' _ (IH1 & IHf & IH2) N|flts s flt _ (IH1 & IHf & IH2)].
  - split; [now exists []|]. split; [reflexivity|now left].
  - destruct s as [s0 buf flt]. unfold s_next in N. cbn [sr_src sr_buf sr_filter] in *.
    destruct (next_buffered _ _ s0 buf) as [[o1 [s1 buf1]]|] eqn:E; [|discriminate]. cbn in N. injection N as <- <-.
    cbn [sr_src sr_buf sr_filter]. change (buf_next rt (s_blob rt chk inflate flt) (s0, buf) = Ret (o1, (s1, buf1))) in E.
    assert (I : In flt flts) by (destruct flts; [discriminate|injection IHf as ->; now left]).
    destruct buf as [|a l].
    + destruct (buf_kept_step rt (s_blob rt chk inflate flt) src s0 [] o1 s1 buf1 IH1 ltac:(discriminate) E) as (A & [B|B]); eauto 6.
    + injection E as <- <- <-. split; [exact IH1|]. split; [exact IHf|]. right. destruct IH2 as [IH2|[f [If IH2]]]; [discriminate|].
      exists f. split; [exact If|]. eapply kept_tail, IH2.
  - split; [exact IH1|]. split; [reflexivity|]. destruct IH2 as [IH2|[f [If IH2]]]; [now left|]. right. exists f. split; [now right|exact IH2].
Qed.
Print Assumptions C118_kept.

Theorem C118_kept_others : forall rt chk inflate src,
  (forall left buf, called (a_next rt chk inflate) (src, []) (left, buf) ->
     (exists read, src = read ++ left) /\ (buf = [] \/ kept rt (a_blob rt chk inflate) src left (rev buf))) /\
  (forall left buf, called (p_next rt chk inflate) (src, []) (left, buf) ->
     (exists read, src = read ++ left) /\ (buf = [] \/ kept rt (p_blob rt chk inflate) src left buf)).
Proof.
  intros rt chk inflate src. split.
  - assert (G : forall s, called (a_next rt chk inflate) (src, []) s ->
      (exists read, src = read ++ fst s) /\ (snd s = [] \/ kept rt (a_blob rt chk inflate) src (fst s) (rev (snd s)))).
    { induction 1 as [|[s0 b0] o s2 _ (IH1 & IH2) N]; [split; [now exists []|now left]|]. cbn [fst snd] in *.
      rewrite <- (rev_involutive b0), a_next_buf in N.
      destruct (buf_next _ _ _) as [[o1 [s1 b1]]|] eqn:E; [|discriminate]. cbn in N. injection N as <- <-.
      cbn [fst snd]. rewrite rev_involutive.
      destruct (buf_kept_step rt (a_blob rt chk inflate) src s0 (rev b0) o1 s1 b1 IH1) as (A & B); [|exact E|].
      - intros a l Hl. destruct IH2 as [-> |IH2]; [discriminate|exact IH2].
      - split; [exact A|]. destruct B as [-> |B]; [now left|now right]. }
    intros left buf H. exact (G _ H).
  - assert (G : forall s, called (p_next rt chk inflate) (src, []) s ->
      (exists read, src = read ++ fst s) /\ (snd s = [] \/ kept rt (p_blob rt chk inflate) src (fst s) (snd s))).
    { induction 1 as [|[s0 b0] o [s1 b1] _ (IH1 & IH2) N]; [split; [now exists []|now left]|]. cbn [fst snd] in *.
      eapply buf_kept_step; [exact IH1| |exact N].
      intros a l Hl. destruct IH2 as [-> |IH2]; [discriminate|exact IH2]. }
    intros left buf H. exact (G _ H).
Qed.
Print Assumptions C118_kept_others.

(** The file of C104's example: after the first object the second one of its block
    is held, and a filter set then does not change that. *)
Example C118_ex : exists o s1, s_next ex_rt (plain true) Some (s_new (file_bytes (map item_frame ex_pos_items))) = Ret (Some o, s1) /\
  length (sr_buf s1) = 1%nat /\
  used ex_rt (plain true) Some (file_bytes (map item_frame ex_pos_items)) [only_ways; OF true true true] (s_set_filter only_ways s1) /\
  length (sr_buf (s_set_filter only_ways s1)) = 1%nat.
Proof.
  destruct (s_next ex_rt (plain true) Some (s_new (file_bytes (map item_frame ex_pos_items)))) as [[o s1]|] eqn:E;
    [|exfalso; revert E; vm_compute; discriminate].
  assert (L : length (sr_buf s1) = 1%nat /\ exists x, o = Some x).
  { revert E. vm_compute. intros [= <- <-]. split; [reflexivity|eauto]. }
  destruct L as (L & x & ->). exists x, s1. split; [reflexivity|]. split; [exact L|]. split; [|exact L].
  apply used_filter. eapply used_next; [apply used_new|exact E].
Qed.
