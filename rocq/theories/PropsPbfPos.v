(** C104: how far the PBF readers have read their source. *)
From Coq Require Import String ZArith List Bool Lia.
From Verif Require Import Base Utf8 Timestamp Obj PbWire PbMsg PbMsgFacts PbfRead SpecPbf SpecIter PbfFrame
  PropsPbfFile PropsPbf PropsFlow.
Import ListNotations.
Open Scope Z_scope.

(** ** Specification *)

(** The objects the reader finds in an item of the file. *)
Definition item_gives {A} (decode : blob -> outcome (list A)) (i : item) (l : list A) : Prop :=
  match i with Data _ b => decode b = Ret l | Other _ _ _ => l = [] end.

(** [n] is the smallest number of lists that together have [k] elements. *)
Definition fewest {A} (ls : list (list A)) (k n : nat) : Prop :=
  (k <= length (concat (firstn n ls)))%nat /\
  forall m, (m < n)%nat -> (length (concat (firstn m ls)) < k)%nat.

(** ** Proof *)

Lemma Takes_app {St A} (next : St -> outcome (option A * St)) s l s1 l' s2 :
  Takes next s l s1 -> Takes next s1 l' s2 -> Takes next s (l ++ l') s2.
Proof. induction 1; intros; cbn [app]; [assumption|]. eapply Takes_one; eauto. Qed.

Lemma Takes_map {S1 S2 A} (n1 : S1 -> outcome (option A * S1)) (n2 : S2 -> outcome (option A * S2)) (f : S1 -> S2) :
  (forall s, n2 (f s) = do (o, s') <- n1 s; Ret (o, f s')) ->
  forall s l s', Takes n1 s l s' -> Takes n2 (f s) l (f s').
Proof.
  intros H s l s'. induction 1 as [|s a s1 l s2 E _ IH]; [constructor|].
  eapply Takes_one; [rewrite H, E; reflexivity|exact IH].
Qed.

Lemma takes_buffer {A} rt (decode : blob -> outcome (list A)) src rest : forall l,
  Takes (buf_next rt decode) (src, l ++ rest) l (src, rest).
Proof. induction l as [|a l IH]; cbn [app]; [constructor|]. eapply Takes_one; [reflexivity|exact IH]. Qed.

Lemma next_item {A} rt (decode : blob -> outcome (list A)) i is tail l : item_ok i -> item_gives decode i l ->
  buf_next rt decode (file_bytes (map item_frame (i :: is)) ++ tail, [])
  = buf_next rt decode (file_bytes (map item_frame is) ++ tail, l).
Proof.
  intros Hi Hg. destruct Hi as [Hf Ht].
  cbn [map file_bytes flat_map]. fold (file_bytes (map item_frame is)). rewrite <- app_assoc.
  set (rest := file_bytes (map item_frame is) ++ tail).
  rewrite buf_next_eq, (next_blob_frame rt (item_frame i) rest Hf).
  destruct i as [ix b|t ix d]; cbn [item_frame item_gives] in *; unfold is_data; cbn [fr_type fr_data].
  - rewrite str_eqb_refl. rewrite (blob_rt rt b Ht).
    + cbn [unwrap obind]. now rewrite Hg.
    + destruct Hf as (_ & H1 & _). cbn [fr_data] in H1. unfold fits. fold (ser_blob b). lia.
  - apply str_eqb_neq in Ht. rewrite Ht. subst l. now rewrite (buf_next_eq rt decode rest).
Qed.

Lemma takes_file {A} rt (decode : blob -> outcome (list A)) tail : forall is ls, Forall item_ok is ->
  Forall2 (item_gives decode) is ls -> forall buf k, (k <= length (buf ++ concat ls))%nat ->
  exists n, (k <= length (buf ++ concat (firstn n ls)))%nat /\
    (forall m, (m < n)%nat -> (length (buf ++ concat (firstn m ls)) < k)%nat) /\
    Takes (buf_next rt decode) (file_bytes (map item_frame is) ++ tail, buf) (firstn k (buf ++ concat ls))
      (file_bytes (map item_frame (skipn n is)) ++ tail, skipn k (buf ++ concat (firstn n ls))).
Proof.
  assert (Buf : forall is ls buf k, (k <= length buf)%nat ->
    (k <= length (buf ++ concat (firstn 0 ls)))%nat /\
    (forall m, (m < 0)%nat -> (length (buf ++ concat (firstn m ls)) < k)%nat) /\
    Takes (buf_next rt decode) (file_bytes (map item_frame is) ++ tail, buf) (firstn k (buf ++ concat ls))
      (file_bytes (map item_frame (skipn 0 is)) ++ tail, skipn k (buf ++ concat (firstn 0 ls)))).
  { intros is ls buf k Hk. cbn [firstn concat skipn]. rewrite app_nil_r. split; [exact Hk|]. split; [lia|].
    rewrite firstn_app. replace (k - length buf)%nat with 0%nat by lia. cbn [firstn]. rewrite app_nil_r.
    rewrite <- (firstn_skipn k buf) at 1. apply takes_buffer. }
  intros is ls HF HG. revert HF. induction HG as [|i l is ls Hg HG IH]; intros HF buf k Hk.
  - exists 0%nat. apply Buf. cbn in Hk. now rewrite app_nil_r in Hk.
  - destruct (Nat.le_gt_cases k (length buf)) as [L|L]; [exists 0%nat; now apply Buf|].
    inversion HF; subst. cbn [concat] in Hk. rewrite !app_length in Hk.
    destruct (IH H2 l (k - length buf)%nat) as (n & A1 & A2 & A3).
    { rewrite app_length. lia. }
    exists (S n). cbn [firstn concat skipn]. rewrite !app_length in *. split; [lia|]. split.
    + intros [|m] Hm; [cbn; rewrite app_nil_r; lia|]. cbn [firstn concat]. specialize (A2 m ltac:(lia)).
      rewrite !app_length in *. lia.
    + rewrite firstn_app, (firstn_all2 buf), skipn_app, (skipn_all2 buf) by lia. cbn [app].
      eapply Takes_app.
      * rewrite <- (app_nil_r buf) at 1. apply takes_buffer.
      * pose proof (next_item rt decode i is tail l H1 Hg) as E.
        inversion A3 as [s E1 E2 E3|s a s1 l0 s2 N T E1 E2 E3].
        -- exfalso. destruct (k - length buf)%nat eqn:Ek; [lia|].
           destruct (l ++ concat ls) as [|x y] eqn:El; [|discriminate].
           apply (f_equal (@length _)) in El. rewrite app_length in El. cbn in El. lia.
        -- subst. eapply Takes_one; [rewrite E; exact N|exact T].
Qed.

(** ** C104 *)

Theorem C104_position : forall rt chk inflate is tail, Forall item_ok is ->
  let src := file_bytes (map item_frame is) ++ tail in
  let left n := file_bytes (map item_frame (skipn n is)) ++ tail in
  (forall nodes ways rels ls k, Forall2 (item_gives (s_blob rt chk inflate (OF nodes ways rels))) is ls ->
     (k <= length (concat ls))%nat ->
     exists n s, fewest ls k n /\
       Takes (s_next rt chk inflate) (s_set_filter (OF nodes ways rels) (s_new src)) (firstn k (concat ls)) s /\
       sr_src s = left n) /\
  (forall ls k, Forall2 (item_gives (a_blob rt chk inflate)) is ls -> (k <= length (concat ls))%nat ->
     exists n buf, fewest ls k n /\ Takes (a_next rt chk inflate) (src, []) (firstn k (concat ls)) (left n, buf)) /\
  (forall ls k, Forall2 (item_gives (p_blob rt chk inflate)) is ls -> (k <= length (concat ls))%nat ->
     exists n buf, fewest ls k n /\ Takes (p_next rt chk inflate) (src, []) (firstn k (concat ls)) (left n, buf)).
Proof.
  intros rt chk inflate is tail HF src left. split; [|split].
  - intros nn nw nr ls k HG Hk.
    destruct (takes_file rt _ tail is ls HF HG [] k Hk) as (n & A1 & A2 & A3).
    exists n, (SReader (left n) (skipn k (concat (firstn n ls))) (OF nn nw nr)).
    split; [now split|]. split; [|reflexivity].
    apply (Takes_map _ (s_next rt chk inflate) (fun s => SReader (fst s) (snd s) (OF nn nw nr))) in A3; [exact A3|].
    intros [s0 b0]. unfold s_next, buf_next. cbn [fst snd sr_src sr_buf sr_filter]. reflexivity.
  - intros ls k HG Hk.
    destruct (takes_file rt _ tail is ls HF HG [] k Hk) as (n & A1 & A2 & A3).
    exists n, (rev (skipn k (concat (firstn n ls)))). split; [now split|].
    apply (Takes_map _ (a_next rt chk inflate) (fun s => (fst s, rev (snd s)))) in A3; [exact A3|].
    intros [s0 b0]. apply a_next_buf.
  - intros ls k HG Hk.
    destruct (takes_file rt _ tail is ls HF HG [] k Hk) as (n & A1 & A2 & A3).
    exists n, (skipn k (concat (firstn n ls))). split; [now split|exact A3].
Qed.
Print Assumptions C104_position.

Lemma next_blob_suffix rt : forall f src ob r, next_blob_fuel rt f src = Ret (ob, r) -> exists u, src = u ++ r.
Proof.
  assert (RE : forall n src b r, read_exact n src = Ret (b, r) -> src = b ++ r).
  { intros n src b r. unfold read_exact. destruct (n <? 0); [discriminate|].
    destruct (take n src) as [[x y]|] eqn:E; [|discriminate]. cbn. intros [= -> ->]. now apply take_inv in E. }
  induction f as [|f IH]; intros src ob r H; [discriminate|]. cbn [next_blob_fuel] in H.
  destruct (read_u32_be src) as [[n|] r0] eqn:E.
  - assert (E0 : exists u, src = u ++ r0).
    { destruct src as [|a [|b [|c [|d src]]]]; cbn in E; try discriminate. injection E as _ <-. now exists [a; b; c; d]. }
    destruct E0 as [u0 ->].
    destruct (read_exact n r0) as [[hb r1]|] eqn:E1; [|discriminate]. cbn [obind] in H. apply RE in E1. subst r0.
    destruct (parse_header rt hb) as [h|]; [|discriminate]. cbn [unwrap obind] in H.
    destruct (read_exact _ r1) as [[bb r2]|] eqn:E2; [|discriminate]. cbn [obind] in H. apply RE in E2. subst r1.
    destruct (bh_type h) as [ty|]; [|discriminate]. cbn [unwrap obind] in H.
    destruct (str_eqb ty (lit "OSMData")); cbn [negb] in H.
    + destruct (parse_blob rt bb); [|discriminate]. cbn in H. injection H as _ <-.
      exists (u0 ++ hb ++ bb). now rewrite !app_assoc.
    + apply IH in H as [u ->]. exists (u0 ++ hb ++ bb ++ u). now rewrite !app_assoc.
  - injection H as _ <-. destruct src as [|a [|b [|c [|d src]]]]; cbn in E; try discriminate; injection E as <-;
      eexists; symmetry; apply app_nil_r.
Qed.

Lemma buf_suffix {A} rt (decode : blob -> outcome (list A)) : forall n src buf o src' buf', (length src < n)%nat ->
  buf_next rt decode (src, buf) = Ret (o, (src', buf')) ->
  (exists u, src = u ++ src') /\ (buf <> [] -> src' = src) /\ (o = None -> src' = []).
Proof.
  induction n as [|n IH]; intros src buf o src' buf' Hn H; [lia|].
  destruct buf as [|a l].
  - split; [|split; [easy|intros ->; apply buf_end in H; now injection H as -> _]].
    rewrite buf_next_eq in H. destruct (next_blob rt src) as [[[b|] r]|] eqn:E; [| |discriminate]; cbn [obind] in H.
    + pose proof (next_blob_rest _ _ _ _ E) as L. apply next_blob_suffix in E as [u ->].
      destruct (decode b) as [l|]; [|discriminate]. cbn [obind] in H.
      assert (L' : (length r < n)%nat) by lia. destruct (IH _ _ _ _ _ L' H) as ((u' & ->) & _). exists (u ++ u'). now rewrite app_assoc.
    + injection H as _ <- _. now apply next_blob_suffix in E.
  - injection H as <- <- <-. split; [now exists []|]. split; [easy|discriminate].
Qed.

(** On any source at all: what is left is an end of what there was; a call that
    finds objects waiting does not touch the source; at the end nothing is left. *)
Theorem C104_any_source : forall rt chk inflate,
  (forall s o s', s_next rt chk inflate s = Ret (o, s') ->
     (exists used, sr_src s = used ++ sr_src s') /\ (sr_buf s <> [] -> sr_src s' = sr_src s) /\
     (o = None -> sr_src s' = [])) /\
  (forall src buf o src' buf', a_next rt chk inflate (src, buf) = Ret (o, (src', buf')) ->
     (exists used, src = used ++ src') /\ (buf <> [] -> src' = src) /\ (o = None -> src' = [])) /\
  (forall src buf o src' buf', p_next rt chk inflate (src, buf) = Ret (o, (src', buf')) ->
     (exists used, src = used ++ src') /\ (buf <> [] -> src' = src) /\ (o = None -> src' = [])).
Proof.
  intros rt chk inflate. split; [|split].
  - intros [src buf flt] o s'. unfold s_next. cbn [sr_src sr_buf sr_filter].
    destruct (next_buffered _ _ src buf) as [[o1 [src1 buf1]]|] eqn:E; [|discriminate]. cbn. intros [= <- <-].
    cbn [sr_src sr_buf]. eapply (buf_suffix rt _ (S (length src)) src buf); [lia|exact E].
  - intros src buf o src' buf' H. rewrite <- (rev_involutive buf), a_next_buf in H.
    destruct (buf_next _ _ _) as [[o1 [src1 buf1]]|] eqn:E; [|discriminate]. cbn in H. injection H as <- <- _.
    apply (buf_suffix _ _ (S (length src))) in E as (A & B & C); [|lia].
    split; [exact A|]. split; [|exact C]. intros Hb. apply B. intros E1. apply Hb.
    rewrite <- (rev_involutive buf), E1. reflexivity.
  - intros src buf o src' buf' H. eapply (buf_suffix rt _ (S (length src))); [lia|exact H].
Qed.
Print Assumptions C104_any_source.

(** A file of four frames (a header, two nodes, a way, a relation): the first two
    objects need two frames, the third one more. *)
Definition ex_pos_items : list item := Other (lit "OSMHeader") None [1; 2] :: map (write_item ex_id) ex_ks.
Example C104_ex : Forall item_ok ex_pos_items /\
  exists ls, Forall2 (item_gives (s_blob ex_rt (plain true) Some (OF true true true))) ex_pos_items ls /\
    map (@length _) ls = [0; 2; 1; 1]%nat /\ fewest ls 1 2 /\ fewest ls 2 2 /\ fewest ls 3 3 /\ fewest ls 0 0.
Proof.
  split.
  - destruct C43_example as (_ & H2 & H3 & _). constructor; [split; [exact H3|discriminate]|].
    inv H2. match goal with H : Forall _ (_ :: _) |- _ => inv H end. match goal with H : Forall _ (_ :: _) |- _ => inv H end.
    repeat match goal with H : sizes_ok _ _ |- _ => destruct H as (_ & H) end.
    constructor; [|constructor; [|constructor; [|constructor]]]; (split; [assumption|vm_compute; split; congruence]).
  - eexists. split; [|split].
    + constructor; [reflexivity|]. constructor; [vm_compute; reflexivity|]. constructor; [vm_compute; reflexivity|].
      constructor; [vm_compute; reflexivity|constructor].
    + reflexivity.
    + unfold fewest. repeat split; cbn; try lia; intros m Hm; do 3 (destruct m as [|m]; [cbn; lia|]); lia.
Qed.
