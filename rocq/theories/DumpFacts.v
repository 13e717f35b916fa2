(** Reading XML texts byte by byte. *)
From Coq Require Import String ZArith List Bool Lia.
From Coq Require Import ZifyBool ZifyNat.
From Verif Require Import Base Ints Utf8 XmlToken Changesets QuickXml SpecDump.
Import ListNotations.
Open Scope Z_scope.

Lemma q_run_app p a b : q_run p (a ++ b) = q_run (q_run p a) b.
Proof. apply fold_left_app. Qed.
Lemma q_run_cons p c l : q_run p (c :: l) = q_run (q_step p c) l.
Proof. reflexivity. Qed.

Lemma white_ws b : white b -> ws b = true.
Proof. unfold white, ws. cbn. lia. Qed.
Lemma ws_white b : ws b = true -> white b.
Proof. unfold white, ws. cbn. lia. Qed.

Lemma name_byte b : ~ special b ->
  ws b = false /\ b <> 33 /\ b <> 34 /\ b <> 38 /\ b <> 39 /\ b <> 47 /\ b <> 60 /\ b <> 61 /\ b <> 62 /\ b <> 63.
Proof.
  unfold special, white. cbn. intros H. split; [|lia].
  destruct (ws b) eqn:E; [|easy]. exfalso. apply H. left. apply ws_white in E. exact E.
Qed.

(** ** Character data *)

Lemma run_text t st out : plain_text t -> forall s,
  q_run (Q (QText s) st out) t = Q (QText (match t with [] => s | _ => true end)) st out.
Proof.
  intros [H1 H2]. induction t as [|b t IH]; intros s; [reflexivity|].
  rewrite q_run_cons. unfold q_step. cbn [q_mode].
  replace (b =? 60) with false by (symmetry; apply Z.eqb_neq; intros ->; apply H1; now left).
  replace (b =? 38) with false by (symmetry; apply Z.eqb_neq; intros ->; apply H2; now left).
  unfold q_go. cbn [q_stack q_out]. rewrite app_nil_r.
  rewrite IH by (intros H; first [apply H1; now right|apply H2; now right]). now destruct t.
Qed.

(** ** Tags *)

(** Bytes that leave the reader in a tag. *)
Lemma run_elem t st out : Forall (fun b => b <> 62 /\ b <> 34 /\ b <> 39) t -> forall buf,
  q_run (Q (QElem None buf) st out) t = Q (QElem None (buf ++ t)) st out.
Proof.
  induction 1 as [|b t (H1 & H2 & H3) _ IH]; intros buf; [cbn; now rewrite app_nil_r|].
  rewrite q_run_cons. unfold q_step. cbn [q_mode]. unfold is_quote.
  replace (b =? 62) with false by lia. replace (b =? 34) with false by lia. replace (b =? 39) with false by lia.
  unfold q_go. cbn [q_stack q_out orb]. rewrite app_nil_r, IH. now rewrite <- app_assoc.
Qed.

Lemma run_quoted q v st out : ~ In q v -> forall buf,
  q_run (Q (QElem (Some q) buf) st out) v = Q (QElem (Some q) (buf ++ v)) st out.
Proof.
  induction v as [|b v IH]; intros Hv buf; [cbn; now rewrite app_nil_r|].
  rewrite q_run_cons. unfold q_step. cbn [q_mode].
  replace (b =? q) with false by (symmetry; apply Z.eqb_neq; intros ->; apply Hv; now left).
  unfold q_go. cbn [q_stack q_out]. rewrite app_nil_r, IH by (intros H; apply Hv; now right).
  now rewrite <- app_assoc.
Qed.

Lemma white_elem w : Forall white w -> Forall (fun b => b <> 62 /\ b <> 34 /\ b <> 39) w.
Proof. apply Forall_impl. unfold white. cbn. lia. Qed.
Lemma name_elem n : good_name n -> Forall (fun b => b <> 62 /\ b <> 34 /\ b <> 39) n.
Proof. intros [_ H]. revert H. apply Forall_impl. intros b Hb. apply name_byte in Hb. lia. Qed.

Lemma run_attributes l t st out : attributes l t -> forall buf,
  q_run (Q (QElem None buf) st out) t = Q (QElem None (buf ++ t)) st out.
Proof.
  induction 1 as [|w1 k w2 w3 q v l t H0 H1 Hk H2 H3 Hq Hv Hl _ IH]; intros buf; [cbn; now rewrite app_nil_r|].
  rewrite !q_run_app.
  rewrite run_elem by (now apply white_elem). rewrite run_elem by (now apply name_elem).
  rewrite run_elem by (now apply white_elem). rewrite (run_elem [61]) by (repeat constructor; lia).
  rewrite run_elem by (now apply white_elem).
  assert (E1 : forall b, q_run (Q (QElem None b) st out) [q] = Q (QElem (Some q) (b ++ [q])) st out).
  { intros b. destruct Hq as [-> | ->]; cbn; unfold q_go; cbn; now rewrite app_nil_r. }
  rewrite E1, run_quoted by exact Hv.
  assert (E2 : forall b, q_run (Q (QElem (Some q) b) st out) [q] = Q (QElem None (b ++ [q])) st out).
  { intros b. cbn. unfold q_go. cbn. now rewrite Z.eqb_refl, app_nil_r. }
  rewrite E2, IH. now rewrite <- !app_assoc.
Qed.

(** ** The attributes of a tag *)

Lemma drop_white w r : Forall white w -> drop_ws (w ++ r) = drop_ws r.
Proof. induction 1 as [|b w H _ IH]; [easy|]. cbn [app drop_ws]. now rewrite (white_ws b H). Qed.
Lemma drop_solid b r : ws b = false -> drop_ws (b :: r) = b :: r.
Proof. intros H. cbn. now rewrite H. Qed.

Lemma split_none p a b r : Forall (fun x => p x = false) a -> p b = true -> split_at p (a ++ b :: r) = (a, b :: r).
Proof.
  intros H Hb. induction H as [|x a Hx _ IH]; cbn [app split_at]; [now rewrite Hb|]. now rewrite Hx, IH.
Qed.
Lemma split_all p a : Forall (fun x => p x = false) a -> split_at p a = (a, []).
Proof. induction 1 as [|x a Hx _ IH]; [easy|]. cbn [split_at]. now rewrite Hx, IH. Qed.

Lemma is_in_spec k l : is_in k l = false <-> ~ In k l.
Proof.
  unfold is_in. rewrite <- not_true_iff_false, existsb_exists. split; intros H1 H2; apply H1.
  - exists k. split; [exact H2|apply str_eqb_refl].
  - destruct H2 as (x & Hx & E). apply str_eqb_eq in E. now subst.
Qed.

Lemma attrs_read l t : attributes l t -> forall w seen fuel, Forall white w ->
  (length (t ++ w) <= fuel)%nat -> NoDup (map fst l) -> (forall k, In k seen -> ~ In k (map fst l)) ->
  q_attrs fuel seen (t ++ w) = map as_attr l.
Proof.
  induction 1 as [|w1 k w2 w3 q v l t H0 H1 Hk H2 H3 Hq Hv Hl _ IH]; intros w seen fuel Hw Hf Hn Hs.
  - destruct fuel; [easy|]. cbn [q_attrs app]. rewrite <- (app_nil_r w), drop_white by exact Hw. reflexivity.
  - cbn [map fst] in *. inversion Hn as [|? ? Hn1 Hn2]; subst.
    destruct fuel as [|fuel]; [exfalso; rewrite !app_length in Hf; destruct w1; [easy|cbn in Hf; lia]|].
    cbn [q_attrs]. rewrite <- !app_assoc. rewrite drop_white by exact H1.
    destruct Hk as [Hk0 Hk]. destruct k as [|c k]; [easy|]. inversion Hk as [|? ? Hc Hk']; subst.
    pose proof (name_byte c Hc) as (W & _). cbn [app]. rewrite drop_solid by exact W.
    assert (Hkb : Forall (fun x => (x =? 61) || ws x = false) k).
    { revert Hk'. apply Forall_impl. intros b Hb. pose proof (name_byte b Hb) as (E & F). rewrite E. lia. }
    assert (Es : exists b r, w2 ++ 61 :: w3 ++ q :: v ++ q :: t ++ w = b :: r /\ (b =? 61) || ws b = true).
    { destruct w2 as [|b w2]; cbn [app]; do 2 eexists; (split; [reflexivity|]); [reflexivity|].
      inversion H2; subst. rewrite (white_ws b) by easy. apply orb_true_r. }
    destruct Es as (b0 & r0 & Es & Eb). rewrite Es, (split_none _ k b0 r0 Hkb Eb), <- Es.
    rewrite drop_white by exact H2. rewrite drop_solid by reflexivity. cbn [negb Z.eqb Pos.eqb].
    assert (Eseen : is_in (c :: k) seen = false).
    { apply is_in_spec. intros H. apply (Hs _ H). now left. }
    rewrite Eseen. rewrite drop_white by exact H3.
    assert (Wq : ws q = false /\ is_quote q = true) by (destruct Hq as [-> | ->]; now split).
    destruct Wq as [Wq Wq2]. rewrite drop_solid by exact Wq. rewrite Wq2. cbn [negb].
    rewrite (split_none (fun b => b =? q) v q (t ++ w)).
    2:{ apply Forall_forall. intros x Hx. apply Z.eqb_neq. intros ->. easy. }
    2:{ apply Z.eqb_refl. }
    f_equal. apply IH; auto.
    + rewrite !app_length in *. cbn [length] in *. lia.
    + intros k' [<-|H]; [exact Hn1|]. intros H'. apply (Hs k' H). now right.
Qed.

Lemma tag_read n l t w : good_name n -> attributes l t -> NoDup (map fst l) -> Forall white w ->
  tag_parts (n ++ t ++ w) = (n, map as_attr l).
Proof.
  intros [_ Hn] Ha Hd Hw. unfold tag_parts.
  assert (Hnb : Forall (fun x => ws x = false) n).
  { revert Hn. apply Forall_impl. intros b Hb. now apply name_byte in Hb. }
  assert (E : split_at ws (n ++ t ++ w) = (n, t ++ w)).
  { destruct (t ++ w) as [|b r] eqn:E; [rewrite app_nil_r; now apply split_all|].
    apply split_none; [exact Hnb|]. apply white_ws.
    destruct Ha as [|w1 k w2 w3 q v l t H0 H1 Hk H2 H3 Hq Hv Hl Hr].
    - cbn in E. subst w. now inversion Hw.
    - destruct w1 as [|x w1]; [easy|]. cbn in E. injection E as <- _. now inversion H1. }
  rewrite E. f_equal. now apply attrs_read.
Qed.

(** The content of a tag does not begin or end with a slash. *)
Lemma content_last n l t w : good_name n -> attributes l t -> Forall white w ->
  exists a b, n ++ t ++ w = a ++ [b] /\ b <> 47.
Proof.
  intros Hn Ha Hw. destruct w as [|x w _] using rev_ind.
  2:{ exists (n ++ t ++ w), x. split; [now rewrite <- !app_assoc|].
      apply Forall_app in Hw as [_ Hw]. inversion Hw as [|? ? Hx _]. unfold white in Hx. cbn in Hx. lia. }
  rewrite app_nil_r.
  assert (G : t = [] \/ exists a b, t = a ++ [b] /\ b <> 47).
  { clear -Ha. induction Ha as [|w1 k w2 w3 q v l t H0 H1 Hk H2 H3 Hq Hv Hl _ IH]; [now left|right].
    destruct IH as [-> | (a & b & -> & Hb)].
    - exists (w1 ++ k ++ w2 ++ [61] ++ w3 ++ [q] ++ v), q. split; [now rewrite <- !app_assoc|lia].
    - exists (w1 ++ k ++ w2 ++ [61] ++ w3 ++ [q] ++ v ++ [q] ++ a), b. split; [now rewrite <- !app_assoc|exact Hb]. }
  destruct G as [-> | (a & b & -> & Hb)].
  - rewrite app_nil_r. destruct Hn as [H1 H2]. destruct n as [|x n _] using rev_ind; [easy|].
    exists n, x. split; [easy|]. apply Forall_app in H2 as [_ H2]. inversion H2 as [|? ? Hx _].
    apply name_byte in Hx. lia.
  - exists (n ++ a), b. split; [now rewrite <- app_assoc|exact Hb].
Qed.

Lemma run_lt st out c r : (c =? 33) = false -> (c =? 63) = false -> (c =? 62) = false -> is_quote c = false ->
  q_run (Q QLt st out) (c :: r) = q_run (Q (QElem None [c]) st out) r.
Proof.
  intros H1 H2 H3 H4. rewrite q_run_cons. unfold q_step. cbn [q_mode]. rewrite H1, H2, H3, H4.
  unfold q_go. cbn [q_stack q_out]. now rewrite app_nil_r.
Qed.

Lemma name_split n : good_name n -> exists c r, n = c :: r /\ c <> 47 /\
  (c =? 33) = false /\ (c =? 63) = false /\ (c =? 62) = false /\ is_quote c = false /\ Forall (fun b => b <> 62 /\ b <> 34 /\ b <> 39) r.
Proof.
  intros Hn. pose proof (name_elem n Hn) as He. destruct Hn as [H1 H2]. destruct n as [|c r]; [easy|].
  inversion H2 as [|? ? Hc Hr]; subst. inversion He as [|? ? _ Hr2]; subst. apply name_byte in Hc.
  exists c, r. unfold is_quote. repeat split; try lia; try easy.
Qed.

(** Inside a tag up to the byte before the last. *)
Lemma run_tag_body n l t w st out : good_name n -> attributes l t -> Forall white w ->
  q_run (Q QLt st out) (n ++ t ++ w) = Q (QElem None (n ++ t ++ w)) st out.
Proof.
  intros Hn Ha Hw. destruct (name_split n Hn) as (c & r & -> & _ & E1 & E2 & E3 & E4 & Hr).
  cbn [app]. rewrite run_lt by assumption. rewrite !q_run_app, run_elem by exact Hr.
  rewrite (run_attributes l t) by exact Ha. rewrite run_elem by (now apply white_elem).
  cbn [app]. now rewrite <- !app_assoc.
Qed.

Lemma gt_elem buf st out : q_run (Q (QElem None buf) st out) [62] = q_tag (Q (QElem None buf) st out) buf.
Proof. reflexivity. Qed.

Lemma run_start n l t w st out : good_name n -> attributes l t -> NoDup (map fst l) -> Forall white w ->
  q_run (Q QLt st out) (n ++ t ++ w ++ [62])
  = Q (QText false) (n :: st) (out ++ [QEv (QStart n (map as_attr l))]).
Proof.
  intros Hn Ha Hd Hw.
  replace (n ++ t ++ w ++ [62]) with ((n ++ t ++ w) ++ [62]) by (now rewrite <- !app_assoc).
  rewrite q_run_app, (run_tag_body n l) by assumption. rewrite gt_elem.
  destruct (content_last n l t w Hn Ha Hw) as (a & b & E & Hb).
  destruct (name_split n Hn) as (c & r & En & Hc & _).
  assert (Eo : q_open (Q (QElem None (n ++ t ++ w)) st out) (n ++ t ++ w)
    = Q (QText false) (n :: st) (out ++ [QEv (QStart n (map as_attr l))])).
  { unfold q_open. rewrite E at 1. rewrite rev_app_distr. cbn [rev app].
    replace (b =? 47) with false by lia. rewrite (tag_read n l t w) by assumption. reflexivity. }
  unfold q_tag. rewrite <- Eo. rewrite En. cbn [app]. now replace (c =? 47) with false by lia.
Qed.

Lemma run_empty n l t w st out : good_name n -> attributes l t -> NoDup (map fst l) -> Forall white w ->
  q_run (Q QLt st out) (n ++ t ++ w ++ [47; 62])
  = Q (QText false) st (out ++ [QEv (QEmpty n (map as_attr l))]).
Proof.
  intros Hn Ha Hd Hw.
  replace (n ++ t ++ w ++ [47; 62]) with ((n ++ t ++ w) ++ [47] ++ [62]) by (now rewrite <- !app_assoc).
  rewrite q_run_app, (run_tag_body n l) by assumption.
  rewrite q_run_app, (run_elem [47]) by (repeat constructor; lia). rewrite gt_elem.
  destruct (name_split n Hn) as (c & r & En & Hc & _).
  assert (Eo : q_open (Q (QElem None ((n ++ t ++ w) ++ [47])) st out) ((n ++ t ++ w) ++ [47])
    = Q (QText false) st (out ++ [QEv (QEmpty n (map as_attr l))])).
  { unfold q_open. rewrite rev_app_distr. cbn [rev app]. change (47 =? 47) with true. cbv iota.
    rewrite rev_involutive, (tag_read n l t w) by assumption. reflexivity. }
  unfold q_tag. rewrite <- Eo. rewrite En. cbn [app]. now replace (c =? 47) with false by lia.
Qed.

Lemma trim_white w : Forall white w -> trim_end w = [].
Proof. induction 1 as [|b w H _ IH]; [easy|]. cbn. rewrite IH. now rewrite (white_ws b H). Qed.
Lemma trim_name n w : Forall (fun b => ~ special b) n -> Forall white w -> trim_end (n ++ w) = n.
Proof.
  intros H Hw. induction H as [|b n Hb _ IH]; [now apply trim_white|].
  cbn [app trim_end]. rewrite IH. apply name_byte in Hb as (E & _). rewrite E. now destruct n.
Qed.

Lemma run_end n w st out : good_name n -> Forall white w ->
  q_run (Q QLt (n :: st) out) ([47] ++ n ++ w ++ [62])
  = Q (QText false) st (out ++ [QEv (QEnd n)]).
Proof.
  intros Hn Hw. cbn [app]. rewrite run_lt by reflexivity.
  replace (n ++ w ++ [62]) with ((n ++ w) ++ [62]) by (now rewrite <- !app_assoc).
  rewrite !q_run_app. rewrite run_elem by (now apply name_elem). rewrite run_elem by (now apply white_elem).
  rewrite gt_elem. cbn [app]. unfold q_tag. cbn [Z.eqb Pos.eqb]. change (47 =? 47) with true. cbv iota.
  unfold q_end. destruct Hn as [H1 H2]. rewrite <- ?app_assoc, (trim_name n w H2 Hw).
  cbn [q_stack q_out]. destruct n as [|c n]; [easy|]. now rewrite str_eqb_refl.
Qed.

(** ** Comments, CDATA, processing instructions, references *)

(** A prefix of something ended by [t] does not contain [t]. *)
Lemma ended_no t c : t <> [] -> ended_by t c -> forall a b, c = a ++ t ++ b -> False.
Proof.
  intros Ht H a b ->. specialize (H a (b ++ t)). rewrite <- !app_assoc in H. specialize (H eq_refl).
  apply app_eq_nil in H as [_ H]. easy.
Qed.

(** How many of the last bytes are [x], at most two. *)
Fixpoint count_up (x : Z) (d : nat) (l : bytes) : nat :=
  match l with
  | [] => d
  | b :: r => count_up x (if b =? x then Nat.min 2 (S d) else O) r
  end.

Lemma count_up_app x l1 : forall d l2, count_up x d (l1 ++ l2) = count_up x (count_up x d l1) l2.
Proof. induction l1 as [|b l1 IH]; intros d l2; [easy|]. cbn. apply IH. Qed.

Lemma count_two x l : count_up x 0 l = 2%nat -> exists a, l = a ++ [x; x].
Proof.
  destruct l as [|b l _] using rev_ind; [discriminate|]. rewrite count_up_app. cbn [count_up].
  destruct (b =? x) eqn:E; [|discriminate]. apply Z.eqb_eq in E as ->.
  destruct l as [|c l _] using rev_ind; [discriminate|]. rewrite count_up_app. cbn [count_up].
  destruct (c =? x) eqn:E; [|discriminate]. apply Z.eqb_eq in E as ->. intros _.
  exists l. now rewrite <- app_assoc.
Qed.

Lemma count_bound x l : forall d, (d <= 2)%nat -> (count_up x d l <= 2)%nat.
Proof. induction l as [|b l IH]; intros d H; [exact H|]. cbn [count_up]. apply IH. destruct (b =? x); lia. Qed.

Lemma run_comment_in c st out : (forall a b, c = a ++ lit "-->" ++ b -> False) ->
  q_run (Q (QComment 0) st out) c = Q (QComment (count_up 45 0 c)) st out.
Proof.
  induction c as [|b c IH] using rev_ind; intros H; [reflexivity|].
  rewrite q_run_app, IH.
  2:{ intros a d ->. apply (H a (d ++ [b])). now rewrite <- !app_assoc. }
  rewrite count_up_app. unfold q_run, q_step. cbn [fold_left q_mode count_up]. unfold q_go. cbn [q_stack q_out].
  rewrite app_nil_r. destruct (b =? 45) eqn:E; [reflexivity|].
  destruct ((b =? 62) && Nat.eqb (count_up 45 0 c) 2) eqn:E2; [|reflexivity]. exfalso.
  apply andb_true_iff in E2 as [E2 E3]. apply Z.eqb_eq in E2 as ->. apply Nat.eqb_eq in E3.
  apply count_two in E3 as (a & ->). apply (H a []). now rewrite <- !app_assoc.
Qed.

Lemma run_comment c st out : ended_by (lit "-->") c ->
  q_run (Q (QComment 0) st out) (c ++ lit "-->") = Q (QText false) st (out ++ [QEv QOther]).
Proof.
  intros H. rewrite q_run_app, run_comment_in by (apply ended_no; [discriminate|exact H]).
  pose proof (count_bound 45 c 0 ltac:(lia)) as B.
  destruct (count_up 45 0 c) as [|[|[|n]]]; try lia; cbn; unfold q_go; cbn; now rewrite !app_nil_r.
Qed.

Lemma run_cdata_in c st out : (forall a b, c = a ++ lit "]]>" ++ b -> False) ->
  q_run (Q (QCdata 0) st out) c = Q (QCdata (count_up 93 0 c)) st out.
Proof.
  induction c as [|b c IH] using rev_ind; intros H; [reflexivity|].
  rewrite q_run_app, IH.
  2:{ intros a d ->. apply (H a (d ++ [b])). now rewrite <- !app_assoc. }
  rewrite count_up_app. unfold q_run, q_step. cbn [fold_left q_mode count_up]. unfold q_go. cbn [q_stack q_out].
  rewrite app_nil_r. destruct (b =? 93) eqn:E; [reflexivity|].
  destruct ((b =? 62) && Nat.eqb (count_up 93 0 c) 2) eqn:E2; [|reflexivity]. exfalso.
  apply andb_true_iff in E2 as [E2 E3]. apply Z.eqb_eq in E2 as ->. apply Nat.eqb_eq in E3.
  apply count_two in E3 as (a & ->). apply (H a []). now rewrite <- !app_assoc.
Qed.

Lemma run_cdata c st out : ended_by (lit "]]>") c ->
  q_run (Q (QCdata 0) st out) (c ++ lit "]]>") = Q (QText false) st (out ++ [QEv QOther]).
Proof.
  intros H. rewrite q_run_app, run_cdata_in by (apply ended_no; [discriminate|exact H]).
  pose proof (count_bound 93 c 0 ltac:(lia)) as B.
  destruct (count_up 93 0 c) as [|[|[|n]]]; try lia; cbn; unfold q_go; cbn; now rewrite !app_nil_r.
Qed.

Lemma run_pi_in c st out : c <> [] -> hd 0 c <> 62 -> (forall a b, c = a ++ lit "?>" ++ b -> False) ->
  exists q, q_run (Q (QPi true false) st out) c = Q (QPi false q) st out /\ (q = true -> exists a, c = a ++ [63]).
Proof.
  induction c as [|b c IH] using rev_ind; intros H0 H1 H; [easy|].
  destruct c as [|x c'].
  - cbn in H1. exists (b =? 63). split.
    + cbn [app q_run fold_left]. unfold q_step. cbn [q_mode]. replace (b =? 62) with false by lia.
      unfold q_go. cbn. now rewrite app_nil_r.
    + intros E. apply Z.eqb_eq in E as ->. now exists [].
  - destruct IH as (q & E & Hq); [discriminate|exact H1| |].
    { intros a d E0. apply (H a (d ++ [b])). rewrite E0. now rewrite <- !app_assoc. }
    rewrite q_run_app, E. cbn [q_run fold_left]. unfold q_step. cbn [q_mode].
    destruct (b =? 62) eqn:Eb.
    + apply Z.eqb_eq in Eb as ->. destruct q.
      * exfalso. destruct (Hq eq_refl) as (a & E0). apply (H a []). rewrite E0. now rewrite <- !app_assoc.
      * exists false. unfold q_go. cbn. rewrite app_nil_r. now split.
    + exists (b =? 63). unfold q_go. cbn [q_stack q_out]. rewrite app_nil_r. split; [reflexivity|].
      intros Eq. apply Z.eqb_eq in Eq as ->. eauto.
Qed.

Lemma run_pi c st out : c <> [] -> hd 0 c <> 62 -> ended_by (lit "?>") c ->
  q_run (Q (QPi true false) st out) (c ++ lit "?>") = Q (QText false) st (out ++ [QEv QOther]).
Proof.
  intros H0 H1 H. destruct (run_pi_in c st out H0 H1) as (q & E & _).
  { apply ended_no; [discriminate|exact H]. }
  rewrite q_run_app, E. cbn. unfold q_go. cbn. now rewrite !app_nil_r.
Qed.

Lemma run_ref_in n st out : ~ In 59 n -> ~ In 38 n -> ~ In 60 n ->
  q_run (Q QRef st out) n = Q QRef st out.
Proof.
  intros H1 H2 H3. induction n as [|b n IH]; [reflexivity|]. rewrite q_run_cons. unfold q_step. cbn [q_mode].
  replace (b =? 59) with false by (symmetry; apply Z.eqb_neq; intros ->; apply H1; now left).
  replace (b =? 38) with false by (symmetry; apply Z.eqb_neq; intros ->; apply H2; now left).
  replace (b =? 60) with false by (symmetry; apply Z.eqb_neq; intros ->; apply H3; now left).
  unfold q_go. cbn [q_stack q_out]. rewrite app_nil_r. apply IH; intros H; [apply H1|apply H2|apply H3]; now right.
Qed.

(** ** Pieces *)

Lemma lt_text s st out : q_run (Q (QText s) st out) (lit "<") = Q QLt st (out ++ q_flush s).
Proof. reflexivity. Qed.

Lemma run_markup e m : markup e m -> forall s st st' out, opened st [e] = Some st' ->
  q_run (Q (QText s) st out) m = Q (QText false) st' (out ++ q_flush s ++ [QEv e]).
Proof.
  intros Hm s st st' out Ho. destruct Hm as [n l t w Hn Ha Hd Hw|n l t w Hn Ha Hd Hw|n w Hn Hw|c Hc|c Hc|c Hc Hh He|n H1 H2 H3];
    cbn [opened] in Ho.
  - injection Ho as <-. rewrite q_run_app, lt_text. change (lit ">") with [62].
    rewrite (run_start n l) by assumption. now rewrite <- app_assoc.
  - injection Ho as <-. rewrite q_run_app, lt_text. change (lit "/>") with [47; 62].
    rewrite (run_empty n l) by assumption. now rewrite <- app_assoc.
  - destruct st as [|m st]; [discriminate|]. destruct (str_eqb n m) eqn:E; [|discriminate].
    apply str_eqb_eq in E as <-. injection Ho as <-.
    change (lit "</" ++ n ++ w ++ lit ">") with (lit "<" ++ [47] ++ n ++ w ++ [62]).
    rewrite q_run_app, lt_text, run_end by assumption. now rewrite <- app_assoc.
  - injection Ho as <-. change (lit "<!--" ++ c ++ lit "-->") with (lit "<" ++ lit "!--" ++ c ++ lit "-->").
    rewrite q_run_app, lt_text, q_run_app.
    assert (E : forall o, q_run (Q QLt st o) (lit "!--") = Q (QComment 0) st o).
    { intros o. cbn. unfold q_go. cbn. now rewrite !app_nil_r. }
    rewrite E, run_comment by exact Hc. now rewrite <- app_assoc.
  - injection Ho as <-. change (lit "<![CDATA[" ++ c ++ lit "]]>") with (lit "<" ++ lit "![CDATA[" ++ c ++ lit "]]>").
    rewrite q_run_app, lt_text, q_run_app.
    assert (E : forall o, q_run (Q QLt st o) (lit "![CDATA[") = Q (QCdata 0) st o).
    { intros o. cbn. unfold q_go. cbn. now rewrite !app_nil_r. }
    rewrite E, run_cdata by exact Hc. now rewrite <- app_assoc.
  - injection Ho as <-. change (lit "<?" ++ c ++ lit "?>") with (lit "<" ++ lit "?" ++ c ++ lit "?>").
    rewrite q_run_app, lt_text, q_run_app.
    assert (E : forall o, q_run (Q QLt st o) (lit "?") = Q (QPi true false) st o).
    { intros o. cbn. unfold q_go. cbn. now rewrite !app_nil_r. }
    rewrite E, run_pi by assumption. now rewrite <- app_assoc.
  - injection Ho as <-. rewrite !q_run_app.
    change (q_run (Q (QText s) st out) (lit "&")) with (Q QRef st (out ++ q_flush s)).
    rewrite run_ref_in by assumption. cbn. unfold q_go. cbn. now rewrite <- app_assoc.
Qed.

Lemma opened_app l1 : forall st l2, opened st (l1 ++ l2)
  = match opened st l1 with Some st' => opened st' l2 | None => None end.
Proof.
  induction l1 as [|e l1 IH]; intros st l2; [reflexivity|]. destruct e as [n a|n a|n|]; cbn [app opened]; auto.
  destruct st as [|m st]; [reflexivity|]. destruct (str_eqb n m); auto.
Qed.

Lemma opened_text t st l : opened st (text_event t ++ l) = opened st l.
Proof. now destruct t. Qed.

Lemma run_piece x st st' out : good_piece x -> opened st (piece_events x) = Some st' ->
  q_run (Q (QText false) st out) (piece_bytes x) = Q (QText false) st' (out ++ map QEv (piece_events x)).
Proof.
  intros [Ht Hm] Ho. unfold piece_bytes, piece_events in *. rewrite q_run_app, run_text by exact Ht.
  rewrite opened_text in Ho. rewrite (run_markup _ _ Hm _ _ _ _ Ho). rewrite map_app. now destruct (pc_text x).
Qed.

Lemma run_pieces xs : Forall good_piece xs -> forall st st' out, opened st (flat_map piece_events xs) = Some st' ->
  q_run (Q (QText false) st out) (flat_map piece_bytes xs)
  = Q (QText false) st' (out ++ map QEv (flat_map piece_events xs)).
Proof.
  induction 1 as [|x xs Hx _ IH]; intros st st' out Ho; cbn [flat_map] in *.
  - injection Ho as <-. cbn. now rewrite app_nil_r.
  - rewrite opened_app in Ho. destruct (opened st (piece_events x)) as [st1|] eqn:E; [|discriminate].
    rewrite q_run_app, (run_piece x st st1 out Hx E), (IH _ _ _ Ho). now rewrite map_app, <- app_assoc.
Qed.

Theorem text_items l b : text_of l b -> q_items b = map QEv l.
Proof.
  intros (xs & t & Hx & Ht & -> & -> & Ho). rewrite opened_app in Ho.
  destruct (opened [] (flat_map piece_events xs)) as [st|] eqn:E; [|easy].
  unfold q_items, q_start. rewrite q_run_app, (run_pieces xs Hx _ _ _ E), run_text by exact Ht.
  cbn [q_out q_mode app]. rewrite map_app. f_equal. now destruct t.
Qed.
