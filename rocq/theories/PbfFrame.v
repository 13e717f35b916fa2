(** Facts about framing and buffering in the PBF readers. *)
From Coq Require Import String ZArith List Bool Lia.
From Verif Require Import Base Utf8 Timestamp Obj PbWire PbMsg PbMsgFacts PbfRead SpecPbf SpecIter.
Import ListNotations.
Open Scope Z_scope.

(** ** Reading one frame *)

Lemma read_u32_be32 n r : 0 <= n < 2^32 -> read_u32_be (be32 n ++ r) = (Some n, r).
Proof.
  intros H. unfold be32, read_u32_be. cbn [app]. f_equal. f_equal.
  change (2^24) with (256 * 65536). change (2^16) with (256 * 256). change (2^8) with 256.
  rewrite <- (Z.div_div n 256 65536) by lia. change 65536 with (256 * 256).
  rewrite <- !(Z.div_div _ 256 256) by lia.
  assert (E : forall x, x / 256 * 256 + x mod 256 = x) by (intros x; pose proof (Z.div_mod x 256); lia).
  now rewrite !E.
Qed.

Lemma read_exact_app n b r : Z.of_nat (length b) = n -> read_exact n (b ++ r) = Ret (b, r).
Proof.
  intros H. unfold read_exact. replace (n <? 0) with false by lia. now rewrite take_app.
Qed.

Lemma read_exact_short n b : Z.of_nat (length b) < n -> read_exact n b = Panic.
Proof.
  intros H. unfold read_exact. replace (n <? 0) with false by lia.
  unfold take. replace (Z.of_nat (length b) <? n) with true by lia. easy.
Qed.

Lemma take_rest n bs b r : take n bs = Some (b, r) -> (length r <= length bs)%nat.
Proof. intros H. apply take_inv in H. subst. rewrite app_length. lia. Qed.

Lemma read_exact_rest n bs b r : read_exact n bs = Ret (b, r) -> (length r <= length bs)%nat.
Proof.
  unfold read_exact. destruct (n <? 0); [easy|]. destruct (take n bs) as [[x y]|] eqn:E; [|easy].
  cbn. intros H. injection H as <- <-. now apply take_rest in E.
Qed.

Lemma read_u32_rest src n r : read_u32_be src = (Some n, r) -> (length r + 4 = length src)%nat.
Proof.
  destruct src as [|a [|b [|c [|d src]]]]; cbn; try easy. intros H. injection H as <- <-. lia.
Qed.

(** Enough fuel is enough. *)
Lemma next_blob_fuel_irrel rt : forall f1 f2 src, (length src < f1)%nat -> (length src < f2)%nat ->
  next_blob_fuel rt f1 src = next_blob_fuel rt f2 src.
Proof.
  induction f1 as [|f1 IH]; intros f2 src H1 H2; [lia|]. destruct f2 as [|f2]; [lia|].
  cbn [next_blob_fuel]. destruct (read_u32_be src) as [[n|] r] eqn:E; [|easy].
  apply read_u32_rest in E.
  destruct (read_exact n r) as [[hb r1]|] eqn:E1; [|easy]. cbn [obind].
  apply read_exact_rest in E1.
  destruct (parse_header rt hb) as [h|]; [|easy]. cbn [unwrap obind].
  destruct (read_exact _ r1) as [[bb r2]|] eqn:E2; [|easy]. cbn [obind].
  apply read_exact_rest in E2.
  destruct (bh_type h) as [ty|]; [|easy]. cbn [unwrap obind].
  destruct (str_eqb ty (lit "OSMData")); [easy|]. cbn [negb]. apply IH; lia.
Qed.

Lemma next_blob_fuel_rest rt : forall f src b r, next_blob_fuel rt f src = Ret (Some b, r) -> (length r < length src)%nat.
Proof.
  induction f as [|f IH]; intros src b r H; [easy|]. cbn [next_blob_fuel] in H.
  destruct (read_u32_be src) as [[n|] r0] eqn:E; [|easy].
  apply read_u32_rest in E.
  destruct (read_exact n r0) as [[hb r1]|] eqn:E1; [|easy]. cbn [obind] in H.
  apply read_exact_rest in E1.
  destruct (parse_header rt hb) as [h|]; [|easy]. cbn [unwrap obind] in H.
  destruct (read_exact _ r1) as [[bb r2]|] eqn:E2; [|easy]. cbn [obind] in H.
  apply read_exact_rest in E2.
  destruct (bh_type h) as [ty|]; [|easy]. cbn [unwrap obind] in H.
  destruct (str_eqb ty (lit "OSMData")).
  - cbn [negb] in H. destruct (parse_blob rt bb); [|easy]. cbn in H. injection H as _ <-. lia.
  - cbn [negb] in H. apply IH in H. lia.
Qed.

Lemma next_blob_rest rt src b r : next_blob rt src = Ret (Some b, r) -> (length r < length src)%nat.
Proof. apply next_blob_fuel_rest. Qed.

Lemma frame_header_parse rt f : frame_ok f ->
  parse_header rt (frame_header f) =
  Some (BlobHeader (Some (fr_type f)) (fr_index f) (Some (Z.of_nat (length (fr_data f))))).
Proof.
  intros (H1 & H2 & H3). apply parse_header_ok; [|exact H3|easy].
  split; [exact H1|]. cbn. unfold in_i32. lia.
Qed.

Lemma next_blob_frame rt f r : frame_ok f ->
  next_blob rt (frame_bytes f ++ r) =
  if is_data f then do b <- unwrap (parse_blob rt (fr_data f)); Ret (Some b, r)
  else next_blob rt r.
Proof.
  intros Hf. pose proof (frame_header_parse rt f Hf) as Hp. destruct Hf as (H1 & H2 & H3).
  unfold next_blob at 1. cbn [next_blob_fuel]. unfold frame_bytes. rewrite <- !app_assoc.
  rewrite read_u32_be32 by lia.
  rewrite read_exact_app by easy. cbn [obind]. rewrite Hp. cbn [unwrap obind bh_datasize unwrap_or bh_type].
  rewrite read_exact_app by easy. cbn [obind]. fold (is_data f).
  destruct (is_data f); cbn [negb]; [easy|].
  apply next_blob_fuel_irrel; [|lia]. rewrite !app_length. cbn [length be32]. lia.
Qed.

Lemma next_blob_nil rt : next_blob rt [] = Ret (None, []).
Proof. reflexivity. Qed.

(** A file is read frame by frame. *)
Fixpoint data_blobs (rt : pbrt) (fs : list frame) : option (list blob) :=
  match fs with
  | [] => Some []
  | f :: r =>
      if is_data f then
        match parse_blob rt (fr_data f), data_blobs rt r with
        | Some b, Some l => Some (b :: l)
        | _, _ => None
        end
      else data_blobs rt r
  end.

Lemma Runs_eq {St A} (next : St -> outcome (option A * St)) s s' l r :
  next s = next s' -> Runs next s' l r -> Runs next s l r.
Proof.
  intros E H. inv H.
  - apply Runs_end. congruence.
  - apply Runs_panic. congruence.
  - eapply Runs_step; [|eassumption]. congruence.
Qed.

Lemma runs_frames rt fs bs rest l r : Forall frame_ok fs -> data_blobs rt fs = Some bs ->
  Runs (next_blob rt) rest l r -> Runs (next_blob rt) (file_bytes fs ++ rest) (bs ++ l) r.
Proof.
  intros H. revert bs. induction H as [|f fs Hf _ IH]; intros bs Hb Hr.
  - injection Hb as <-. exact Hr.
  - cbn [file_bytes flat_map]. fold (file_bytes fs). rewrite <- app_assoc.
    pose proof (next_blob_frame rt f (file_bytes fs ++ rest) Hf) as E.
    cbn [data_blobs] in Hb. destruct (is_data f).
    + destruct (parse_blob rt (fr_data f)) as [b|]; [|easy].
      destruct (data_blobs rt fs) as [l'|]; [|easy]. injection Hb as <-.
      cbn in E. cbn [app]. eapply Runs_step; [exact E|]. now apply IH.
    + eapply Runs_eq; [exact E|]. now apply IH.
Qed.

(** A cut frame. *)
Lemma cut_short rt q : (length q < 4)%nat -> next_blob rt q = Ret (None, []).
Proof. destruct q as [|a [|b [|c [|d q]]]]; cbn; intros H; try easy; try lia. Qed.

Lemma app_split {A} : forall a b q r : list A, a ++ b = q ++ r -> (length a <= length q)%nat ->
  exists q', q = a ++ q' /\ b = q' ++ r.
Proof.
  induction a as [|x a IH]; intros b q r H Hl; [now exists q|].
  destruct q as [|y q]; cbn [length app] in *; [lia|]. injection H as -> H.
  apply IH in H as (q' & -> & ->); [|lia]. now exists q'.
Qed.

Lemma cut_frame rt f q : frame_ok f -> (4 <= length q < length (frame_bytes f))%nat ->
  (exists r, frame_bytes f = q ++ r) -> next_blob rt q = Panic.
Proof.
  intros Hf Hq (r & Hr). pose proof (frame_header_parse rt f Hf) as Hp. destruct Hf as (H1 & H2 & H3).
  unfold frame_bytes in Hr, Hq. apply app_split in Hr as (q' & -> & Hr); [|exact (proj1 Hq)].
  rewrite !app_length in Hq. set (n := length (be32 _)) in Hq.
  unfold next_blob. cbn [next_blob_fuel]. rewrite read_u32_be32 by lia.
  destruct (Nat.ltb (length q') (length (frame_header f))) eqn:E.
  - apply Nat.ltb_lt in E. rewrite read_exact_short by lia. easy.
  - apply Nat.ltb_ge in E. apply app_split in Hr as (q2 & -> & Hr); [|exact E].
    rewrite read_exact_app by easy. cbn [obind]. rewrite Hp. cbn [unwrap obind bh_datasize unwrap_or].
    rewrite read_exact_short; [easy|]. rewrite Hr in *. rewrite !app_length in *. lia.
Qed.

(** ** Buffered reading *)

Lemma refill_irrel {A} rt (decode : blob -> outcome (list A)) : forall f1 f2 src,
  (length src < f1)%nat -> (length src < f2)%nat -> refill rt decode f1 src = refill rt decode f2 src.
Proof.
  induction f1 as [|f1 IH]; intros f2 src H1 H2; [lia|]. destruct f2 as [|f2]; [lia|].
  cbn [refill]. destruct (next_blob rt src) as [[[b|] r]|] eqn:E; cbn [obind]; try easy.
  apply next_blob_rest in E. destruct (decode b) as [[|a l]|]; cbn [obind]; try easy.
  apply IH; lia.
Qed.

Definition buf_next {A} (rt : pbrt) (decode : blob -> outcome (list A)) (s : bytes * list A) :=
  next_buffered rt decode (fst s) (snd s).

Lemma buf_next_eq {A} rt (decode : blob -> outcome (list A)) src :
  buf_next rt decode (src, []) =
  do (ob, r) <- next_blob rt src;
  match ob with
  | None => Ret (None, (r, []))
  | Some b => do l <- decode b; buf_next rt decode (r, l)
  end.
Proof.
  unfold buf_next at 1. cbn [fst snd next_buffered refill].
  destruct (next_blob rt src) as [[[b|] r]|] eqn:E; cbn [obind]; try easy.
  apply next_blob_rest in E.
  destruct (decode b) as [[|a l]|]; cbn [obind]; try easy.
  unfold buf_next. cbn [fst snd next_buffered]. rewrite (refill_irrel rt decode _ (S (length r))) by lia.
  easy.
Qed.

Lemma runs_buffered {A} rt (decode : blob -> outcome (list A)) src bs r :
  Runs (next_blob rt) src bs r -> forall ls buf,
  Forall2 (fun b l => decode b = Ret l) bs ls ->
  Runs (buf_next rt decode) (src, buf) (buf ++ concat ls)
    (match r with Ret s => Ret (s, []) | Panic => Panic end).
Proof.
  induction 1 as [s s' H|s H|s b s1 bs r H _ IH]; intros ls buf Hd;
    induction buf as [|a buf IHb]; cbn [app]; try (eapply Runs_step; [reflexivity|exact IHb]).
  - inv Hd. apply Runs_end. rewrite buf_next_eq, H. easy.
  - inv Hd. apply Runs_panic. rewrite buf_next_eq, H. easy.
  - inv Hd. cbn [concat]. eapply Runs_eq.
    2: { apply IH. eassumption. }
    rewrite buf_next_eq, H. cbn [obind]. match goal with E : decode _ = Ret _ |- _ => rewrite E end. easy.
Qed.

Lemma runs_buffered_panic {A} rt (decode : blob -> outcome (list A)) src bs b bs' r :
  Runs (next_blob rt) src (bs ++ b :: bs') r -> decode b = Panic -> forall ls buf,
  Forall2 (fun b l => decode b = Ret l) bs ls ->
  Runs (buf_next rt decode) (src, buf) (buf ++ concat ls) Panic.
Proof.
  intros H Hp. remember (bs ++ b :: bs') as all eqn:Ea. revert bs Ea.
  induction H as [s s' H|s H|s b0 s1 bs0 r H _ IH]; intros bs Ea ls buf Hd;
    induction buf as [|a buf IHb]; cbn [app]; try (eapply Runs_step; [reflexivity|exact IHb]).
  1-2: destruct bs; discriminate.
  destruct bs as [|b1 bs]; injection Ea as -> ->.
  - inv Hd. apply Runs_panic. rewrite buf_next_eq, H. cbn [obind]. now rewrite Hp.
  - inv Hd. cbn [concat]. eapply Runs_eq.
    2: { eapply IH; [reflexivity|eassumption]. }
    rewrite buf_next_eq, H. cbn [obind]. match goal with E : decode _ = Ret _ |- _ => rewrite E end. easy.
Qed.

(** The String reader is the buffered reader with its filter. *)
Lemma s_next_runs rt chk infl flt src buf l r :
  Runs (buf_next rt (s_blob rt chk infl flt)) (src, buf) l r ->
  Runs (s_next rt chk infl) (SReader src buf flt) l
    (match r with Ret s => Ret (SReader (fst s) (snd s) flt) | Panic => Panic end).
Proof.
  intros H. remember (src, buf) as s eqn:Es. revert src buf Es.
  induction H as [s s' H|s H|s a s1 l r H _ IH]; intros src buf ->.
  - apply Runs_end. unfold s_next. cbn [sr_src sr_buf sr_filter].
    unfold buf_next in H. cbn [fst snd] in H. now rewrite H.
  - apply Runs_panic. unfold s_next. cbn [sr_src sr_buf sr_filter].
    unfold buf_next in H. cbn [fst snd] in H. now rewrite H.
  - destruct s1 as [src1 buf1]. eapply Runs_step.
    + unfold s_next. cbn [sr_src sr_buf sr_filter].
      unfold buf_next in H. cbn [fst snd] in H. rewrite H. reflexivity.
    + apply IH. reflexivity.
Qed.

Lemma s_next_runs_inv rt chk infl s l r : Runs (s_next rt chk infl) s l r ->
  exists r', Runs (buf_next rt (s_blob rt chk infl (sr_filter s))) (sr_src s, sr_buf s) l r' /\
    r = match r' with Ret p => Ret (SReader (fst p) (snd p) (sr_filter s)) | Panic => Panic end.
Proof.
  induction 1 as [s s' H|s H|s a s1 l r H _ IH]; unfold s_next in H;
    destruct (next_buffered _ _ _ _) as [[o p]|] eqn:E; cbn [obind] in H; try discriminate.
  - injection H as -> <-. exists (Ret p). split; [|easy]. now apply Runs_end.
  - exists Panic. split; [|easy]. now apply Runs_panic.
  - injection H as -> <-. destruct IH as (r' & IH & ->). exists r'. cbn [sr_filter sr_src sr_buf] in *.
    split; [|easy]. eapply Runs_step; [exact E|]. now destruct p.
Qed.

(** The Arc reader, with its reversed buffer, is the buffered reader. *)
Lemma a_next_buf rt chk infl s0 b0 : a_next rt chk infl (s0, rev b0) =
  do (o, p) <- buf_next rt (a_blob rt chk infl) (s0, b0); Ret (o, (fst p, rev (snd p))).
Proof.
  assert (Rf : forall fuel src, refill rt (fun b => do l <- a_blob rt chk infl b; Ret (rev l)) fuel src =
     do (ol, s') <- refill rt (a_blob rt chk infl) fuel src; Ret (opt_map (@rev _) ol, s')).
  { induction fuel as [|fuel IHf]; intros s; [easy|]. cbn [refill].
    destruct (next_blob rt s) as [[[b|] r0]|]; cbn [obind]; try easy.
    destruct (a_blob rt chk infl b) as [[|x l0]|]; cbn [obind]; try easy.
    - now rewrite IHf.
    - cbn [opt_map]. destruct (rev (x :: l0)) eqn:Er; [|easy].
      apply (f_equal (@length _)) in Er. rewrite rev_length in Er. discriminate. }
  unfold a_next, buf_next. cbn [fst snd]. destruct b0 as [|x b0].
  - cbn [rev next_buffered]. rewrite Rf.
    destruct (refill _ _ _ s0) as [[[[|x l0]|] s']|]; cbn [obind opt_map unwrap_or pop rev]; try easy.
    unfold pop. now rewrite rev_app_distr, rev_involutive.
  - cbn [next_buffered obind fst snd].
    destruct (rev (x :: b0)) as [|y v] eqn:Ev.
    { apply (f_equal (@length _)) in Ev. rewrite rev_length in Ev. discriminate. }
    cbn [obind]. unfold pop. rewrite <- Ev, rev_involutive. easy.
Qed.

Lemma a_next_runs rt chk infl src buf l r :
  Runs (buf_next rt (a_blob rt chk infl)) (src, buf) l r ->
  Runs (a_next rt chk infl) (src, rev buf) l
    (match r with Ret p => Ret (fst p, rev (snd p)) | Panic => Panic end).
Proof.
  intros H. remember (src, buf) as s eqn:Es. revert src buf Es.
  induction H as [s s' H|s H|s a s1 l r H _ IH]; intros src buf ->.
  - apply Runs_end. rewrite a_next_buf, H. easy.
  - apply Runs_panic. rewrite a_next_buf, H. easy.
  - destruct s1 as [src1 buf1]. eapply Runs_step; [rewrite a_next_buf, H; reflexivity|]. cbn [fst snd]. now apply IH.
Qed.
