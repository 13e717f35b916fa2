(** Properties C75 and C76: sources that deliver their bytes in pieces, and sources
    that fail. *)
From Coq Require Import String ZArith List Bool Lia.
From Coq Require Import ZifyBool ZifyNat.
From Verif Require Import Base Utf8 Timestamp Obj SpecIter PbWire PbMsg PbfRead PbfFrame SpecPbf PropsPbfFile PropsPbf PbfEncode PbfIo.
Import ListNotations.
Open Scope Z_scope.

(** ** Sources *)

(** A source that has delivered nothing wrong yet: pieces of at least one byte, and
    interruptions. *)
Definition calm (s : source) : Prop :=
  Forall (fun d => match d with DBytes b => b <> [] | DInterrupted => True | DError => False end) s.
(** What it delivers. *)
Definition delivered (s : source) : bytes := flat_map piece s.
(** From here on nothing can be read: the end of the file, or an error. *)
Definition stops (t : source) : Prop := t = [] \/ (exists r, t = DBytes [] :: r) \/ (exists r, t = DError :: r).

Lemma delivered_app s t : delivered (s ++ t) = delivered s ++ delivered t.
Proof. apply flat_map_app. Qed.

Lemma read_n_sim t : stops t -> forall s n, calm s ->
  (exists b s', read_n n (s ++ t) = (Some b, s' ++ t) /\ calm s' /\ delivered s = b ++ delivered s' /\ length b = n) \/
  (read_n n (s ++ t) = (None, tl t) /\ (length (delivered s) < n)%nat).
Proof.
  intros Ht. induction s as [|d s IH]; intros n Hs.
  - destruct n as [|n].
    + left. exists [], []. repeat split; try constructor. cbn [app]. destruct t; reflexivity.
    + right. destruct Ht as [->|[(r & ->)|(r & ->)]]; cbn [app read_n]; (split; [reflexivity|cbn; lia]).
  - inv Hs. destruct n as [|n].
    { left. exists [], (d :: s). split; [destruct d; reflexivity|]. split; [now constructor|]. split; reflexivity. }
    destruct d as [b| |]; [| |contradiction].
    + destruct b as [|x b]; [contradiction|]. cbn [app read_n]. set (c := x :: b) in *.
      destruct (Nat.leb (length c) (S n)) eqn:E.
      * apply Nat.leb_le in E. destruct (IH (S n - length c)%nat H2) as [(b' & s' & R & C & D & L)|(R & L)].
        -- left. exists (c ++ b'), s'. rewrite R. cbn [opt_map]. split; [reflexivity|]. split; [exact C|].
           unfold delivered in *. cbn [flat_map piece]. rewrite D, app_assoc. split; [reflexivity|]. rewrite app_length. lia.
        -- right. rewrite R. split; [reflexivity|]. unfold delivered in *. cbn [flat_map piece]. rewrite app_length. lia.
      * apply Nat.leb_gt in E. left. exists (firstn (S n) c), (DBytes (skipn (S n) c) :: s).
        split; [reflexivity|]. split.
        { constructor; [|exact H2]. intros Hn. apply (f_equal (@length _)) in Hn. rewrite skipn_length in Hn. cbn [length] in Hn. lia. }
        unfold delivered. cbn [flat_map piece]. rewrite app_assoc, firstn_skipn. split; [reflexivity|]. rewrite firstn_length. lia.
    + cbn [app read_n]. destruct (IH (S n) H2) as [(b' & s' & R & C & D & L)|(R & L)]; [left; eauto 10|right; now split].
Qed.

Lemma read_u32_sim t s : stops t -> calm s ->
  (exists v s', io_read_u32 (s ++ t) = (Some v, s' ++ t) /\ calm s' /\ read_u32_be (delivered s) = (Some v, delivered s') /\
     (length (delivered s') + 4 = length (delivered s))%nat) \/
  (io_read_u32 (s ++ t) = (None, tl t) /\ read_u32_be (delivered s) = (None, [])).
Proof.
  intros Ht Hs. unfold io_read_u32. destruct (read_n_sim t Ht s 4 Hs) as [(b & s' & R & C & D & L)|(R & L)]; rewrite R.
  - left. destruct b as [|a [|b [|c [|d [|]]]]]; try discriminate. eexists _, s'. split; [reflexivity|]. split; [exact C|].
    rewrite D. split; [reflexivity|]. cbn [app length]. lia.
  - right. split; [reflexivity|]. destruct (delivered s) as [|a [|b [|c [|d r]]]]; try reflexivity. cbn in L. lia.
Qed.

Lemma read_exact_sim t s n : stops t -> calm s ->
  (exists b s', io_read_exact n (s ++ t) = Ret (b, s' ++ t) /\ calm s' /\ read_exact n (delivered s) = Ret (b, delivered s') /\
     (length (delivered s') <= length (delivered s))%nat) \/
  (io_read_exact n (s ++ t) = Panic /\ read_exact n (delivered s) = Panic).
Proof.
  intros Ht Hs. unfold io_read_exact, read_exact. destruct (n <? 0) eqn:En; [right; now split|].
  destruct (read_n_sim t Ht s (Z.to_nat n) Hs) as [(b & s' & R & C & D & L)|(R & L)]; rewrite R.
  - left. exists b, s'. split; [reflexivity|]. split; [exact C|]. rewrite D, take_app by lia. split; [reflexivity|]. rewrite app_length. lia.
  - right. split; [reflexivity|]. unfold take. replace (Z.of_nat (length (delivered s)) <? n) with true by lia. reflexivity.
Qed.

Lemma next_blob_sim rt t : stops t -> forall f1 f2 s, calm s -> (length (delivered s) < f1)%nat -> (length (delivered s) < f2)%nat ->
  (exists b s', io_next_blob_fuel rt f1 (s ++ t) = Ret (Some b, s' ++ t) /\ calm s' /\ next_blob_fuel rt f2 (delivered s) = Ret (Some b, delivered s')) \/
  (io_next_blob_fuel rt f1 (s ++ t) = Ret (None, tl t) /\ next_blob_fuel rt f2 (delivered s) = Ret (None, [])) \/
  (io_next_blob_fuel rt f1 (s ++ t) = Panic /\ next_blob_fuel rt f2 (delivered s) = Panic).
Proof.
  intros Ht. induction f1 as [|f1 IH]; intros f2 s Hs H1 H2; [lia|]. destruct f2 as [|f2]; [lia|]. cbn [io_next_blob_fuel next_blob_fuel].
  destruct (read_u32_sim t s Ht Hs) as [(v & s1 & -> & C1 & -> & L1)|(-> & ->)]; [|right; left; now split].
  destruct (read_exact_sim t s1 v Ht C1) as [(hb & s2 & -> & C2 & -> & L2)|(-> & ->)]; [|right; right; now split].
  cbn [obind]. destruct (parse_header rt hb) as [h|]; [|right; right; now split]. cbn [unwrap obind].
  destruct (read_exact_sim t s2 (unwrap_or (bh_datasize h) 0) Ht C2) as [(bb & s3 & -> & C3 & -> & L3)|(-> & ->)]; [|right; right; now split].
  cbn [obind]. destruct (bh_type h) as [ty|]; [|right; right; now split]. cbn [unwrap obind].
  destruct (str_eqb ty (lit "OSMData")); cbn [negb].
  - destruct (parse_blob rt bb) as [b|]; [|right; right; now split]. cbn [unwrap obind]. left. exists b, s3. now split.
  - apply IH; [exact C3| |]; lia.
Qed.

Lemma remaining_app s t : (length (delivered s) <= remaining (s ++ t))%nat.
Proof. unfold remaining. fold (delivered (s ++ t)). rewrite delivered_app, app_length. lia. Qed.

Lemma blob_sim rt t s : stops t -> calm s ->
  (exists b s', io_next_blob rt (s ++ t) = Ret (Some b, s' ++ t) /\ calm s' /\ next_blob rt (delivered s) = Ret (Some b, delivered s')) \/
  (io_next_blob rt (s ++ t) = Ret (None, tl t) /\ next_blob rt (delivered s) = Ret (None, [])) \/
  (io_next_blob rt (s ++ t) = Panic /\ next_blob rt (delivered s) = Panic).
Proof. intros Ht Hs. apply next_blob_sim; [exact Ht|exact Hs| |]; [pose proof (remaining_app s t)|]; lia. Qed.

Lemma refill_sim {A} rt (decode : blob -> outcome (list A)) t : stops t ->
  forall f1 f2 s, calm s -> (length (delivered s) < f1)%nat -> (length (delivered s) < f2)%nat ->
  (exists l s', io_refill rt decode f1 (s ++ t) = Ret (Some l, s' ++ t) /\ calm s' /\ refill rt decode f2 (delivered s) = Ret (Some l, delivered s') /\ l <> []) \/
  (io_refill rt decode f1 (s ++ t) = Ret (None, tl t) /\ refill rt decode f2 (delivered s) = Ret (None, [])) \/
  (io_refill rt decode f1 (s ++ t) = Panic /\ refill rt decode f2 (delivered s) = Panic).
Proof.
  intros Ht. induction f1 as [|f1 IH]; intros f2 s Hs H1 H2; [lia|]. destruct f2 as [|f2]; [lia|]. cbn [io_refill refill].
  destruct (blob_sim rt t s Ht Hs) as [(b & s1 & -> & C1 & E)|[(-> & ->)|(-> & ->)]]; [|right; left; now split|right; right; now split].
  pose proof (next_blob_rest _ _ _ _ E). rewrite E. cbn [obind].
  destruct (decode b) as [[|a l]|]; cbn [obind]; [apply IH; [exact C1| |]; lia| |right; right; now split].
  left. exists (a :: l), s1. repeat split; try assumption. discriminate.
Qed.

(** ** Runs *)

Lemma io_next_step {A} rt (decode : blob -> outcome (list A)) t s buf : stops t -> calm s ->
  (exists a s' buf', io_next rt decode (s ++ t, buf) = Ret (Some a, (s' ++ t, buf')) /\ calm s' /\
     buf_next rt decode (delivered s, buf) = Ret (Some a, (delivered s', buf'))) \/
  (io_next rt decode (s ++ t, buf) = Ret (None, (tl t, [])) /\ buf_next rt decode (delivered s, buf) = Ret (None, ([], []))) \/
  (io_next rt decode (s ++ t, buf) = Panic /\ buf_next rt decode (delivered s, buf) = Panic).
Proof.
  intros Ht Hs. unfold io_next, buf_next. cbn [fst snd]. destruct buf as [|x buf].
  - cbn [next_buffered]. assert (F1 : (length (delivered s) < S (remaining (s ++ t)))%nat) by (pose proof (remaining_app s t); lia).
    assert (F2 : (length (delivered s) < S (length (delivered s)))%nat) by lia.
    destruct (refill_sim rt decode t Ht _ _ s Hs F1 F2) as [(l & s1 & -> & C1 & -> & Hl)|[(-> & ->)|(-> & ->)]]; cbn [obind].
    + destruct l as [|a l]; [easy|]. left. exists a, s1, l. now split.
    + right; left. now split.
    + right; right. now split.
  - cbn [next_buffered]. left. exists x, s, buf. now split.
Qed.

Lemma io_next_sim {A} rt (decode : blob -> outcome (list A)) t : stops t ->
  forall p os r, Runs (buf_next rt decode) p os r -> forall s buf, calm s -> p = (delivered s, buf) ->
  Runs (io_next rt decode) (s ++ t, buf) os (match r with Ret _ => Ret (tl t, []) | Panic => Panic end).
Proof.
  intros Ht p os r H. induction H as [p p' H|p H|p a p1 os r H _ IH]; intros s buf Hs ->;
    (destruct (io_next_step rt decode t s buf Ht Hs) as [(a' & s1 & buf' & E & C1 & E')|[(E & E')|(E & E')]];
     rewrite E' in H; try discriminate).
  - now apply Runs_end.
  - now apply Runs_panic.
  - injection H as -> <-. specialize (IH s1 buf' C1 eq_refl). eapply Runs_step; [exact E|exact IH].
Qed.

Lemma io_a_step rt chk infl t s buf : stops t -> calm s ->
  (exists a s' buf', io_a_next rt chk infl (s ++ t, buf) = Ret (Some a, (s' ++ t, buf')) /\ calm s' /\
     a_next rt chk infl (delivered s, buf) = Ret (Some a, (delivered s', buf'))) \/
  (io_a_next rt chk infl (s ++ t, buf) = Ret (None, (tl t, [])) /\ a_next rt chk infl (delivered s, buf) = Ret (None, ([], []))) \/
  (io_a_next rt chk infl (s ++ t, buf) = Panic /\ a_next rt chk infl (delivered s, buf) = Panic).
Proof.
  intros Ht Hs. unfold io_a_next, a_next.
  assert (P : forall s1 v, v <> [] -> calm s1 ->
     (exists a s' buf', (let '(o, rest) := pop v in Ret (o, (s1 ++ t, rest))) = Ret (Some a, (s' ++ t, buf')) /\ calm s' /\
       (let '(o, rest) := @pop aobj v in Ret (o, (delivered s1, rest))) = Ret (Some a, (delivered s', buf')))).
  { intros s1 v Hv C1. unfold pop. destruct (rev v) as [|a l] eqn:E.
    - apply (f_equal (@rev _)) in E. rewrite rev_involutive in E. contradiction.
    - exists a, s1, (rev l). now split. }
  destruct buf as [|x buf].
  - assert (F1 : (length (delivered s) < S (remaining (s ++ t)))%nat) by (pose proof (remaining_app s t); lia).
    assert (F2 : (length (delivered s) < S (length (delivered s)))%nat) by lia.
    destruct (refill_sim rt (fun b => do l <- a_blob rt chk infl b; Ret (rev l)) t Ht _ _ s Hs F1 F2)
      as [(l & s1 & -> & C1 & -> & Hl)|[(-> & ->)|(-> & ->)]]; cbn [obind unwrap_or].
    + left. now apply P.
    + right; left. now split.
    + right; right. now split.
  - cbn [obind]. left. now apply P.
Qed.

Lemma io_a_sim rt chk infl t : stops t ->
  forall p os r, Runs (a_next rt chk infl) p os r -> forall s buf, calm s -> p = (delivered s, buf) ->
  Runs (io_a_next rt chk infl) (s ++ t, buf) os (match r with Ret _ => Ret (tl t, []) | Panic => Panic end).
Proof.
  intros Ht p os r H. induction H as [p p' H|p H|p a p1 os r H _ IH]; intros s buf Hs ->;
    (destruct (io_a_step rt chk infl t s buf Ht Hs) as [(a' & s1 & buf' & E & C1 & E')|[(E & E')|(E & E')]];
     rewrite E' in H; try discriminate).
  - now apply Runs_end.
  - now apply Runs_panic.
  - injection H as -> <-. specialize (IH s1 buf' C1 eq_refl). eapply Runs_step; [exact E|exact IH].
Qed.

(** ** C75 *)

(** Two iterations give the same: the same objects, and then both end or both
    panic. *)
Definition same_runs {S1 S2 A} (n1 : S1 -> outcome (option A * S1)) (s1 : S1) (n2 : S2 -> outcome (option A * S2)) (s2 : S2) : Prop :=
  (forall os, (exists s, Runs n1 s1 os (Ret s)) <-> (exists s, Runs n2 s2 os (Ret s))) /\
  (forall os, Runs n1 s1 os Panic <-> Runs n2 s2 os Panic).

Lemma same_runs_of {S1 S2 A} (n1 : S1 -> outcome (option A * S1)) s1 (n2 : S2 -> outcome (option A * S2)) s2 e :
  (exists os r, Runs n2 s2 os r) ->
  (forall os r, Runs n2 s2 os r -> Runs n1 s1 os (match r with Ret _ => Ret e | Panic => Panic end)) ->
  same_runs n1 s1 n2 s2.
Proof.
  intros (os & r & R) H. pose proof (H os r R) as R1. split; intros os'; split.
  - intros (s & R'). destruct (Runs_det _ _ _ _ R1 _ _ R') as [<- E]. destruct r; [|discriminate]. eauto.
  - intros (s & R'). exists e. exact (H _ _ R').
  - intros R'. destruct (Runs_det _ _ _ _ R1 _ _ R') as [<- E]. destruct r; [discriminate|]. exact R.
  - intros R'. exact (H _ _ R').
Qed.
Lemma same_runs_trans {S1 S2 S3 A} (n1 : S1 -> outcome (option A * S1)) s1 (n2 : S2 -> outcome (option A * S2)) s2
  (n3 : S3 -> outcome (option A * S3)) s3 : same_runs n1 s1 n2 s2 -> same_runs n3 s3 n2 s2 -> same_runs n1 s1 n3 s3.
Proof. intros [A1 B1] [A2 B2]. split; intros os; [rewrite A1, A2|rewrite B1, B2]; reflexivity. Qed.

(** Reading pieces up to the end, or up to an error, is reading the bytes before it. *)
Lemma io_same rt chk inflate flt s t : calm s -> stops t ->
  same_runs (io_s_next rt chk inflate flt) (s ++ t, []) (s_next rt chk inflate) (SReader (delivered s) [] flt) /\
  same_runs (io_a_next rt chk inflate) (s ++ t, []) (a_next rt chk inflate) (delivered s, []) /\
  same_runs (io_p_next rt chk inflate) (s ++ t, []) (p_next rt chk inflate) (delivered s, []).
Proof.
  intros Hs Ht. split; [|split].
  - apply (same_runs_of _ _ _ _ (tl t, [])).
    + destruct (buffered_total rt (s_blob rt chk inflate flt) (delivered s) []) as (l & r & R). do 2 eexists. eapply s_next_runs. exact R.
    + intros os r R. destruct (s_next_runs_inv _ _ _ _ _ _ R) as (r' & R' & ->). cbn [sr_filter sr_src sr_buf] in R'.
      pose proof (io_next_sim _ _ t Ht _ _ _ R' s [] Hs eq_refl) as H. destruct r'; exact H.
  - apply (same_runs_of _ _ _ _ (tl t, [])).
    + destruct (buffered_total rt (a_blob rt chk inflate) (delivered s) []) as (l & r & R). do 2 eexists.
      exact (a_next_runs rt chk inflate (delivered s) [] _ _ R).
    + intros os r R. exact (io_a_sim _ _ _ t Ht _ _ _ R s [] Hs eq_refl).
  - apply (same_runs_of _ _ _ _ (tl t, [])).
    + destruct (buffered_total rt (p_blob rt chk inflate) (delivered s) []) as (l & r & R). do 2 eexists. exact R.
    + intros os r R. exact (io_next_sim _ _ t Ht _ _ _ R s [] Hs eq_refl).
Qed.

(** However the source cuts its bytes into pieces, and wherever its calls are
    interrupted, the three readers give what they give for the whole bytes. *)
Theorem C75_whole : forall rt chk inflate flt s, calm s ->
  same_runs (io_s_next rt chk inflate flt) (s, []) (s_next rt chk inflate) (SReader (delivered s) [] flt) /\
  same_runs (io_a_next rt chk inflate) (s, []) (a_next rt chk inflate) (delivered s, []) /\
  same_runs (io_p_next rt chk inflate) (s, []) (p_next rt chk inflate) (delivered s, []).
Proof. intros rt chk inflate flt s Hs. rewrite <- (app_nil_r s) at 1 3 5. apply io_same; [exact Hs|now left]. Qed.
Print Assumptions C75_whole.

Theorem C75_pieces_irrelevant : forall rt chk inflate flt s s', calm s -> calm s' -> delivered s = delivered s' ->
  same_runs (io_s_next rt chk inflate flt) (s, []) (io_s_next rt chk inflate flt) (s', []) /\
  same_runs (io_a_next rt chk inflate) (s, []) (io_a_next rt chk inflate) (s', []) /\
  same_runs (io_p_next rt chk inflate) (s, []) (io_p_next rt chk inflate) (s', []).
Proof.
  intros rt chk inflate flt s s' Hs Hs' E.
  destruct (C75_whole rt chk inflate flt s Hs) as (A1 & A2 & A3). destruct (C75_whole rt chk inflate flt s' Hs') as (B1 & B2 & B3).
  rewrite <- E in B1, B2, B3. split; [|split]; eapply same_runs_trans; eassumption.
Qed.
Print Assumptions C75_pieces_irrelevant.

(** A file delivered one byte at a time, every call interrupted once. *)
Definition slowly (b : bytes) : source := flat_map (fun x => [DInterrupted; DBytes [x]]) b.
Lemma slowly_calm b : calm (slowly b) /\ delivered (slowly b) = b.
Proof.
  induction b as [|x b (IH & ID)]; [split; [constructor|reflexivity]|]. split.
  - repeat constructor; [discriminate|exact IH].
  - unfold delivered, slowly in *. cbn [flat_map app piece]. now rewrite ID.
Qed.
Example C75_example : calm (slowly ex_file) /\ delivered (slowly ex_file) = ex_file /\
  exists s', Runs (io_s_next ex_rt (plain true) Some (OF true true true)) (slowly ex_file, []) (flat_map objs_of ex_ks) (Ret s') /\
  length (flat_map objs_of ex_ks) = 4%nat.
Proof.
  destruct (slowly_calm ex_file) as (C & D). repeat (split; [first [assumption|reflexivity]|]).
  destruct (C75_whole ex_rt (plain true) Some (OF true true true) _ C) as ((E & _) & _). rewrite D in E.
  destruct (E (flat_map objs_of ex_ks)) as (_ & E2). destruct E2 as (s' & R); [eexists; exact ex_file_runs|].
  exists s'. split; [exact R|vm_compute; reflexivity].
Qed.

(** ** C76 *)

(** Exactly what the readers do about a read error: the same as about the end of the
    file at this place. *)
Theorem C76_error_as_end : forall rt chk inflate flt s t, calm s ->
  same_runs (io_s_next rt chk inflate flt) (s ++ DError :: t, []) (s_next rt chk inflate) (SReader (delivered s) [] flt) /\
  same_runs (io_a_next rt chk inflate) (s ++ DError :: t, []) (a_next rt chk inflate) (delivered s, []) /\
  same_runs (io_p_next rt chk inflate) (s ++ DError :: t, []) (p_next rt chk inflate) (delivered s, []).
Proof. intros rt chk inflate flt s t Hs. apply io_same; [exact Hs|]. right. right. now exists t. Qed.
Print Assumptions C76_error_as_end.

(** An error inside a blob, at least four bytes into it, is noticed: the objects of the
    blobs before it, then a panic. *)
Theorem C76_inside_partial : forall rt chk inflate flt is i q s t,
  Forall item_ok is -> item_ok i -> (4 <= length q < length (frame_bytes (item_frame i)))%nat ->
  (exists r, frame_bytes (item_frame i) = q ++ r) ->
  calm s -> delivered s = file_bytes (map item_frame is) ++ q ->
  (forall ls, Forall2 (fun b l => s_blob rt chk inflate flt b = Ret l) (filter_map item_blob is) ls ->
     Runs (io_s_next rt chk inflate flt) (s ++ DError :: t, []) (concat ls) Panic) /\
  (forall ls, Forall2 (fun b l => a_blob rt chk inflate b = Ret l) (filter_map item_blob is) ls ->
     Runs (io_a_next rt chk inflate) (s ++ DError :: t, []) (concat ls) Panic) /\
  (forall ls, Forall2 (fun b l => p_blob rt chk inflate b = Ret l) (filter_map item_blob is) ls ->
     Runs (io_p_next rt chk inflate) (s ++ DError :: t, []) (concat ls) Panic).
Proof.
  intros rt chk inflate flt is i q s t H Hi Hq Hr Hs Hd.
  destruct (C76_error_as_end rt chk inflate flt s t Hs) as ((_ & E1) & (_ & E2) & (_ & E3)). rewrite Hd in *.
  destruct (C34_truncation_noticed_partial rt chk inflate flt is i q H Hi Hq Hr) as (T1 & T2 & T3).
  split; [|split]; intros ls Hl; [apply E1|apply E2|apply E3]; auto.
Qed.
Print Assumptions C76_inside_partial.

(** An error between two blobs, or inside the size that precedes a blob, is not: the
    iteration ends like that of a complete file, and the next call reads on after the
    error. *)
Theorem C76_between_refuted : forall rt chk inflate flt is q s t,
  Forall item_ok is -> (length q < 4)%nat -> calm s -> delivered s = file_bytes (map item_frame is) ++ q ->
  (forall ls, Forall2 (fun b l => s_blob rt chk inflate flt b = Ret l) (filter_map item_blob is) ls ->
     Runs (io_s_next rt chk inflate flt) (s ++ DError :: t, []) (concat ls) (Ret (t, []))) /\
  (forall ls, Forall2 (fun b l => a_blob rt chk inflate b = Ret l) (filter_map item_blob is) ls ->
     Runs (io_a_next rt chk inflate) (s ++ DError :: t, []) (concat ls) (Ret (t, []))) /\
  (forall ls, Forall2 (fun b l => p_blob rt chk inflate b = Ret l) (filter_map item_blob is) ls ->
     Runs (io_p_next rt chk inflate) (s ++ DError :: t, []) (concat ls) (Ret (t, []))).
Proof.
  intros rt chk inflate flt is q s t H Hq Hs Hd.
  assert (Ht : stops (DError :: t)) by (right; right; now exists t).
  assert (R : Runs (next_blob rt) (delivered s) (filter_map item_blob is) (Ret [])).
  { rewrite Hd. rewrite <- (app_nil_r (filter_map _ _)). apply runs_frames; [now apply items_frames|now apply item_blobs|].
    apply Runs_end. now apply cut_short. }
  split; [|split]; intros ls Hl; pose proof (runs_buffered rt _ _ _ _ R ls [] Hl) as B; cbn [app] in B.
  - exact (io_next_sim rt _ _ Ht _ _ _ B s [] Hs eq_refl).
  - pose proof (a_next_runs rt chk inflate _ [] _ _ B) as B'. exact (io_a_sim rt chk inflate _ Ht _ _ _ B' s [] Hs eq_refl).
  - exact (io_next_sim rt _ _ Ht _ _ _ B s [] Hs eq_refl).
Qed.
Print Assumptions C76_between_refuted.

(** A file, an error, and the file once more: four objects and a regular end; then four
    more objects. *)
Example C76_example : exists s' s'',
  Runs (io_s_next ex_rt (plain true) Some (OF true true true)) (slowly ex_file ++ [DError; DBytes ex_file], []) (flat_map objs_of ex_ks) (Ret s') /\
  Runs (io_s_next ex_rt (plain true) Some (OF true true true)) s' (flat_map objs_of ex_ks) (Ret s'') /\
  length (flat_map objs_of ex_ks) = 4%nat.
Proof.
  destruct (slowly_calm ex_file) as (C & D). destruct (s_next_runs_inv _ _ _ _ _ _ ex_file_runs) as (r & R & E).
  destruct r as [p|]; [|discriminate]. cbn [sr_filter sr_src sr_buf s_new] in R.
  exists ([DBytes ex_file], []), ([], []). split; [|split; [|vm_compute; reflexivity]].
  - assert (Ht : stops [DError; DBytes ex_file]) by (right; right; eexists; reflexivity).
    assert (P : (ex_file, []) = (delivered (slowly ex_file), @nil sobj)) by now rewrite D.
    exact (io_next_sim _ _ _ Ht _ _ _ R (slowly ex_file) [] C P).
  - assert (Ht : stops []) by now left.
    assert (C' : calm [DBytes ex_file]) by (repeat constructor; intros N; apply (f_equal (@length _)) in N; vm_compute in N; discriminate).
    assert (P : (ex_file, []) = (delivered [DBytes ex_file], @nil sobj)) by (unfold delivered; cbn [flat_map piece]; now rewrite app_nil_r).
    exact (io_next_sim _ _ _ Ht _ _ _ R [DBytes ex_file] [] C' P).
Qed.
(** The same file, the error twenty bytes in. *)
Example C76_inside_example : exists is i q s, Forall item_ok is /\ item_ok i /\ (4 <= length q < length (frame_bytes (item_frame i)))%nat /\
  (exists r, frame_bytes (item_frame i) = q ++ r) /\ calm s /\ delivered s = file_bytes (map item_frame is) ++ q /\ filter_map item_blob is <> [].
Proof.
  destruct C33_example as (H & _). destruct C34_example as (i & q & r & Hi & E & L).
  exists ex_items, i, q, (slowly (file_bytes (map item_frame ex_items) ++ q)).
  destruct (slowly_calm (file_bytes (map item_frame ex_items) ++ q)) as (C & D).
  repeat (split; [first [assumption|now exists r]|]). vm_compute. discriminate.
Qed.
