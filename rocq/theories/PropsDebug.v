(** C120: the Debug texts of objects. *)
From Coq Require Import String ZArith List Bool Lia.
From Verif Require Import Base SpecNum Ints Timestamp Obj Coord CoordFacts CoordDebug PropsCoordDebug DebugText.
Import ListNotations.
Open Scope Z_scope.

(** ** Specification *)

(** Values of the Rust types: coordinates are i32, texts are Unicode. *)
Definition value_latlon (p : latlon) : Prop := in_i32 (fst p) /\ in_i32 (snd p).
Definition value_tags (l : list (str * str)) : Prop := Forall (fun t => valid_str (fst t) /\ valid_str (snd t)) l.
Definition value_members (l : list member) : Prop := Forall (fun m => valid_str (snd m)) l.
Definition value_meta (m : meta) : Prop :=
  (forall u, m_user m = Some u -> valid_str u) /\ (forall t, m_timestamp m = Some (ISOString t) -> valid_str t).
Definition value_s (o : sobj) : Prop :=
  value_meta (s_meta o) /\ value_tags (s_tags o) /\
  match o with
  | SNode n => forall p, sn_latlon n = Some p -> value_latlon p
  | SWay _ => True
  | SRel r => value_members (sr_members r)
  end.
Definition value_a (o : aobj) : Prop :=
  value_meta (a_meta o) /\
  match o with
  | ANode n => (forall t, an_tags n = Some t -> value_tags t) /\ forall p, an_latlon n = Some p -> value_latlon p
  | AWay w => value_tags (aw_tags w)
  | ARel r => value_tags (ar_tags r) /\ value_members (ar_members r)
  end.

(** ** Proof *)

Lemma Forall_in {A} (P : A -> Prop) l x : Forall P l -> In x l -> P x.
Proof. rewrite Forall_forall. auto. Qed.

(** *** Texts *)

Lemma hexchar_inj a b : 0 <= a < 16 -> 0 <= b < 16 -> hexchar a = hexchar b -> a = b.
Proof. unfold hexchar. destruct (a <? 10) eqn:A, (b <? 10) eqn:B; lia. Qed.
Lemma hexchar_range a : 0 <= a < 16 -> 48 <= hexchar a <= 57 \/ 97 <= hexchar a <= 102.
Proof. unfold hexchar. destruct (a <? 10) eqn:A; lia. Qed.
Lemma hex_range f : forall n, 0 <= n -> Forall (fun c => c <> 125) (hex f n).
Proof.
  induction f as [|f IH]; intros n Hn; [constructor|]. cbn [hex]. apply Forall_app. split.
  - destruct (n <? 16); [constructor|]. apply IH. apply Z.div_pos; lia.
  - constructor; [|constructor]. pose proof (hexchar_range (n mod 16) (Z.mod_pos_bound n 16 ltac:(lia))). lia.
Qed.
Lemma hex_inj f : forall n m, 0 <= n < 16 ^ Z.of_nat f -> 0 <= m < 16 ^ Z.of_nat f -> hex f n = hex f m -> n = m.
Proof.
  induction f as [|f IH]; intros n m Hn Hm H; [cbn in *; lia|]. cbn [hex] in H.
  apply app_inj_tail in H as [H1 H2].
  apply hexchar_inj in H2; [|apply Z.mod_pos_bound; lia|apply Z.mod_pos_bound; lia].
  assert (NE : forall k, 16 <= k -> hex f (k / 16) = [] -> k < 16 ^ Z.of_nat (S f) -> False).
  { intros k Hk E L. destruct f; [cbn in L; lia|]. cbn [hex] in E. now destruct (if k / 16 <? 16 then [] else hex f (k / 16 / 16)). }
  destruct (n <? 16) eqn:A, (m <? 16) eqn:B.
  - rewrite !Z.mod_small in H2 by lia. exact H2.
  - exfalso. eapply (NE m); [lia|now symmetry|lia].
  - exfalso. eapply (NE n); [lia|assumption|lia].
  - rewrite Nat2Z.inj_succ, Z.pow_succ_r in Hn, Hm by lia.
    apply IH in H1; [|split; [apply Z.div_pos; lia|apply Z.div_lt_upper_bound; lia]|split; [apply Z.div_pos; lia|apply Z.div_lt_upper_bound; lia]].
    rewrite (Z.div_mod n 16), (Z.div_mod m 16) by lia. congruence.
Qed.

Lemma split_at (c : Z) a b r s : Forall (fun x => x <> c) a -> Forall (fun x => x <> c) b ->
  a ++ c :: r = b ++ c :: s -> a = b /\ r = s.
Proof.
  revert b. induction a as [|x a IH]; intros [|y b] HA HB E; cbn in E.
  - now injection E.
  - injection E as <- _. now apply Forall_inv in HB.
  - injection E as -> _. now apply Forall_inv in HA.
  - injection E as -> E. apply IH in E as [-> ->]; [easy|now apply Forall_inv_tail in HA|now apply Forall_inv_tail in HB].
Qed.

Section Texts.
Variable printable : char -> bool.

(** What an escaped character looks like. *)
Lemma escape_cases c : scalar c ->
  (escape printable c = [c] /\ c <> 34 /\ c <> 92) \/
  (exists d, escape printable c = [92; d] /\ In (c, d) [(0, 48); (9, 116); (13, 114); (10, 110); (92, 92); (34, 34)]) \/
  (escape printable c = 92 :: 117 :: 123 :: hex 6 c ++ [125]).
Proof.
  intros S. unfold escape.
  destruct (c =? 0) eqn:E0; [right; left; exists 48; apply Z.eqb_eq in E0; subst; cbn; auto 10|].
  destruct (c =? 9) eqn:E1; [right; left; exists 116; apply Z.eqb_eq in E1; subst; cbn; auto 10|].
  destruct (c =? 13) eqn:E2; [right; left; exists 114; apply Z.eqb_eq in E2; subst; cbn; auto 10|].
  destruct (c =? 10) eqn:E3; [right; left; exists 110; apply Z.eqb_eq in E3; subst; cbn; auto 10|].
  destruct (c =? 92) eqn:E4; [right; left; exists 92; apply Z.eqb_eq in E4; subst; cbn; auto 10|].
  destruct (c =? 34) eqn:E5; [right; left; exists 34; apply Z.eqb_eq in E5; subst; cbn; auto 10|].
  destruct (printable c); [left; repeat split; lia|right; right; reflexivity].
Qed.

Lemma escape_inj c d r s : scalar c -> scalar d -> escape printable c ++ r = escape printable d ++ s -> c = d /\ r = s.
Proof.
  intros Hc Hd E.
  destruct (escape_cases c Hc) as [(A & A1 & A2)|[(x & A & I)|A]], (escape_cases d Hd) as [(B & B1 & B2)|[(y & B & J)|B]];
    rewrite A, B in E; cbn [app] in E.
  - injection E as -> ->. easy.
  - now injection E as -> _.
  - now injection E as -> _.
  - now injection E as <- _.
  - injection E as -> ->. cbn in I, J. split; [|reflexivity].
    repeat match goal with H : _ \/ _ |- _ => destruct H | H : False |- _ => destruct H end; congruence.
  - injection E as -> _. exfalso. cbn in I.
    repeat match goal with H : _ \/ _ |- _ => destruct H | H : False |- _ => destruct H end; congruence.
  - now injection E as <- _.
  - injection E as <- _. exfalso. cbn in J.
    repeat match goal with H : _ \/ _ |- _ => destruct H | H : False |- _ => destruct H end; congruence.
  - remember (hex 6 c) as hc eqn:Ec. remember (hex 6 d) as hd eqn:Ed.
    injection E as E. rewrite <- !app_assoc in E. cbn [app] in E. unfold scalar in Hc, Hd.
    apply split_at in E as [E ->]; [|subst hc; apply hex_range; lia|subst hd; apply hex_range; lia]. subst hc hd.
    apply hex_inj in E; [easy| |]; change (16 ^ Z.of_nat 6) with 16777216; lia.
Qed.
Lemma escape_head c : scalar c -> exists x r, escape printable c = x :: r /\ x <> 34.
Proof.
  intros Hc. destruct (escape_cases c Hc) as [(A & A1 & A2)|[(x & A & I)|A]]; rewrite A; eexists; eexists; split; try reflexivity; lia.
Qed.

Lemma quoted_inj s t r r' : valid_str s -> valid_str t -> quoted printable s ++ r = quoted printable t ++ r' -> s = t /\ r = r'.
Proof.
  unfold quoted. cbn [app]. intros HS HT E. injection E as E. rewrite <- !app_assoc in E. cbn [app] in E.
  revert t HT E. induction HS as [|c s Hc HS IH]; intros [|d t] HT E; cbn [flat_map app] in E.
  - now injection E.
  - apply Forall_inv in HT. destruct (escape_head d HT) as (x & q & X & N). rewrite <- app_assoc, X in E. cbn in E. now injection E as <- _.
  - destruct (escape_head c Hc) as (x & q & X & N). rewrite <- app_assoc, X in E. cbn in E. now injection E as -> _.
  - rewrite <- !app_assoc in E. apply escape_inj in E as [-> E]; [|assumption|now apply Forall_inv in HT].
    apply IH in E as [-> ->]; [easy|now apply Forall_inv_tail in HT].
Qed.

(** *** Values *)

(** The characters of numbers, words and names. *)
Definition wordb (c : Z) : bool :=
  ((48 <=? c) && (c <=? 57)) || ((65 <=? c) && (c <=? 90)) || ((97 <=? c) && (c <=? 122)) || (c =? 95) || (c =? 45) || (c =? 46).
Definition word (s : str) : Prop := forallb wordb s = true.

Fixpoint wf (d : dv) : Prop :=
  match d with
  | DAtom s => s <> [] /\ word s
  | DText s => valid_str s
  | DGroup k name items =>
      word name /\
      match k with KStruct => name <> [] /\ items <> [] | KTuple => items <> [] | KList => name = [] end /\
      fold_right (fun it P => (let (l, v) := (it : str * dv) in
        match k with KStruct => l <> [] /\ word l | _ => l = [] end /\ wf v) /\ P) True items
  end.

(** What may follow a value. *)
Definition follows (k : str) : Prop :=
  (exists c r, k = c :: r /\ In c [44; 41; 93; 10]) \/ (exists r, k = 32 :: 125 :: r).

Lemma follows_nonword k : follows k -> exists c r, k = c :: r /\ wordb c = false.
Proof.
  intros [(c & r & -> & I)|(r & ->)]; [|eexists; eexists; split; reflexivity].
  exists c, r. split; [reflexivity|]. cbn in I. repeat destruct I as [<-|I]; try reflexivity. destruct I.
Qed.

Definition stops (k : str) : Prop := exists c r, k = c :: r /\ wordb c = false.
Lemma word_split w w' t t' : word w -> word w' -> stops t -> stops t' -> w ++ t = w' ++ t' -> w = w' /\ t = t'.
Proof.
  intros W W' (c & r & -> & N) (c' & r' & -> & N'). revert w' W'. unfold word in *.
  induction w as [|x w IH]; intros [|y w'] W' E; cbn in *; rewrite ?andb_true_iff in *.
  - easy.
  - injection E as -> _. destruct W' as [W' _]. congruence.
  - injection E as <- _. destruct W as [W _]. congruence.
  - injection E as -> E. apply IH in E as [-> ->]; tauto.
Qed.

Lemma dv_ind2 (P : dv -> Prop) : (forall s, P (DAtom s)) -> (forall s, P (DText s)) ->
  (forall k name items, Forall (fun it => P (snd it)) items -> P (DGroup k name items)) -> forall d, P d.
Proof.
  intros HA HT HG. fix IH 1. intros [s|s|k name items]; [apply HA|apply HT|]. apply HG.
  induction items as [|[l v] items IHi]; constructor; [apply IH|exact IHi].
Qed.

Lemma wf_items k name items : wf (DGroup k name items) ->
  Forall (fun it => match k with KStruct => fst it <> [] /\ word (fst it) | _ => fst it = [] end /\ wf (snd it)) items.
Proof.
  cbn [wf]. intros (_ & _ & H). induction items as [|[l v] items IH]; constructor; cbn in *; [tauto|]. apply IH. tauto.
Qed.

(** The first characters of a value: a word, possibly empty, and what comes behind it. *)
Definition shape (d : dv) (w : str) (t : str) : Prop :=
  match d with
  | DAtom s => w = s /\ follows t
  | DText _ => w = [] /\ exists r, t = 34 :: r
  | DGroup KStruct name _ => w = name /\ exists r, t = 32 :: 123 :: r
  | DGroup KTuple name _ => w = name /\ exists r, t = 40 :: r
  | DGroup KList name _ => w = name /\ exists r, t = 91 :: r
  end.
Lemma shape_stops d w t : shape d w t -> stops t.
Proof.
  destruct d as [s|s|[] name items]; cbn; intros (_ & H); try (destruct H as (r & ->); eexists; eexists; split; reflexivity).
  now apply follows_nonword.
Qed.
Lemma shape_word d w t : wf d -> shape d w t -> word w.
Proof. destruct d as [s|s|[] name items]; cbn; intros H (-> & _); try tauto. reflexivity. Qed.
Lemma compact_shape d k : wf d -> follows k -> exists w t, compact printable d ++ k = w ++ t /\ shape d w t.
Proof.
  intros W F. destruct d as [s|s|kd name items]; [exists s, k; easy|exists [], (quoted printable s ++ k); split; [easy|]; split; [easy|]; eexists; reflexivity|].
  exists name. destruct kd, items as [|it items]; cbn [wf] in W; try tauto; cbn [compact opens];
    rewrite <- ?app_assoc; eexists; split; try reflexivity; (split; [reflexivity|eexists; reflexivity]).
Qed.
Lemma pretty_shape d k : wf d -> follows k -> exists w t, pretty printable d ++ k = w ++ t /\ shape d w t.
Proof.
  intros W F. destruct d as [s|s|kd name items]; [exists s, k; easy|exists [], (quoted printable s ++ k); split; [easy|]; split; [easy|]; eexists; reflexivity|].
  exists name. destruct kd, items as [|it items]; cbn [wf] in W; try tauto; cbn [pretty opens_line];
    rewrite <- ?app_assoc; eexists; split; try reflexivity; (split; [reflexivity|eexists; reflexivity]).
Qed.

(** Values of the same shape are both numbers or words, both texts, or both groups of the
    same kind and name. *)
Lemma same_shape d d' w w' t t' : wf d -> wf d' -> shape d w t -> shape d' w' t' -> w ++ t = w' ++ t' ->
  match d, d' with
  | DAtom s, DAtom s' => s = s' /\ t = t'
  | DText s, DText s' => True
  | DGroup k n _, DGroup k' n' _ => k = k' /\ n = n'
  | _, _ => False
  end.
Proof.
  intros W W' H H' E.
  pose proof (word_split w w' t t' (shape_word _ _ _ W H) (shape_word _ _ _ W' H') (shape_stops _ _ _ H) (shape_stops _ _ _ H') E) as [E1 E2].
  assert (F : forall r, follows (34 :: r) -> False) by (intros r [(c & q & [= <- <-] & I)|(q & [=])]; cbn in I; lia).
  assert (F1 : forall r, follows (40 :: r) -> False) by (intros r [(c & q & [= <- <-] & I)|(q & [=])]; cbn in I; lia).
  assert (F2 : forall r, follows (91 :: r) -> False) by (intros r [(c & q & [= <- <-] & I)|(q & [=])]; cbn in I; lia).
  assert (F3 : forall r, follows (32 :: 123 :: r) -> False) by (intros r [(c & q & [= <- <-] & I)|(q & [=])]; cbn in I; lia).
  subst w' t'.
  destruct d as [s|s|[] n i], d' as [s'|s'|[] n' i']; cbn [shape] in H, H';
    destruct H as [-> H], H' as [E' H'];
    repeat match goal with H : exists _, _ |- _ => destruct H as [? H] end; subst; auto; try congruence;
    try (now eapply F; eassumption); try (now eapply F1; eassumption); try (now eapply F2; eassumption); try (now eapply F3; eassumption).
Qed.

(** A labelled entry. *)
Lemma label_split k l l' s s' : (match k with KStruct => l <> [] /\ word l | _ => l = [] end) ->
  (match k with KStruct => l' <> [] /\ word l' | _ => l' = [] end) -> label l ++ s = label l' ++ s' -> l = l' /\ s = s'.
Proof.
  destruct k; [|intros -> ->; easy|intros -> ->; easy].
  intros [N W] [N' W'] E. unfold label in E. destruct l as [|a l]; [easy|]. destruct l' as [|a' l']; [easy|].
  rewrite <- !app_assoc in E. apply word_split in E as [-> E]; try assumption; try (eexists; eexists; split; reflexivity).
  apply app_inv_head in E. easy.
Qed.

Definition separates (render : dv -> str) (d : dv) : Prop := wf d -> forall d' k k', wf d' -> follows k -> follows k' ->
  render d ++ k = render d' ++ k' -> d = d' /\ k = k'.

(** *** {:?} *)

Notation item := (fun it : str * dv => let (l, v) := it in label l ++ compact printable v).
Lemma tail_split k items : Forall (fun it => separates (compact printable) (snd it)) items ->
  Forall (fun it => match k with KStruct => fst it <> [] /\ word (fst it) | _ => fst it = [] end /\ wf (snd it)) items ->
  forall items' r r',
  Forall (fun it => match k with KStruct => fst it <> [] /\ word (fst it) | _ => fst it = [] end /\ wf (snd it)) items' ->
  flat_map (fun y => lit ", " ++ y) (map item items) ++ closes k ++ r
  = flat_map (fun y => lit ", " ++ y) (map item items') ++ closes k ++ r' -> items = items' /\ r = r'.
Proof.
  assert (FL : forall its r, follows (flat_map (fun y => lit ", " ++ y) (map item its) ++ closes k ++ r)).
  { intros [|it its] r; cbn [map flat_map app].
    - destruct k; [right; eexists; reflexivity|left; eexists; eexists; split; [reflexivity|cbn; auto]|left; eexists; eexists; split; [reflexivity|cbn; auto]].
    - left. eexists; eexists; split; [reflexivity|cbn; auto]. }
  intros HS HW. induction HS as [|[l v] items S1 HS IH]; intros [|[l' v'] items'] r r' HW' E.
  - cbn [map flat_map app] in E. apply app_inv_head in E. easy.
  - exfalso. cbn [map flat_map app] in E. destruct k; discriminate E.
  - exfalso. cbn [map flat_map app] in E. destruct k; discriminate E.
  - cbn [map flat_map] in E. rewrite <- !app_assoc in E. apply app_inv_head in E. rewrite <- ?app_assoc in E.
    inversion HW as [|? ? [L1 W1] HW1]; subst. inversion HW' as [|? ? [L2 W2] HW2]; subst. cbn [fst snd] in *.
    apply (label_split k) in E as [-> E]; [|assumption|assumption].
    apply S1 in E as [-> E]; [|assumption|assumption|apply FL|apply FL].
    apply IH in E as [-> ->]; easy.
Qed.
Lemma compact_separates : forall d, separates (compact printable) d.
Proof.
  apply dv_ind2.
  - intros s W d' k k' W' F F' E.
    destruct (compact_shape _ k W F) as (w & t & E1 & H1), (compact_shape d' k' W' F') as (w' & t' & E2 & H2).
    rewrite E1, E2 in E. pose proof (same_shape _ _ _ _ _ _ W W' H1 H2 E) as S. destruct d' as [s'| |]; try easy.
    destruct S as [-> _]. split; [reflexivity|]. rewrite <- E1, <- E2 in E. cbn [compact] in E. now apply app_inv_head in E.
  - intros s W d' k k' W' F F' E.
    destruct (compact_shape _ k W F) as (w & t & E1 & H1), (compact_shape d' k' W' F') as (w' & t' & E2 & H2).
    pose proof E as E0. rewrite E1, E2 in E. pose proof (same_shape _ _ _ _ _ _ W W' H1 H2 E) as S. destruct d' as [|s'|]; try easy.
    cbn [compact] in E0. apply quoted_inj in E0 as [-> ->]; easy.
  - intros kd name items IH W d' k k' W' F F' E.
    destruct (compact_shape _ k W F) as (w & t & E1 & H1), (compact_shape d' k' W' F') as (w' & t' & E2 & H2).
    pose proof E as E0. rewrite E1, E2 in E. pose proof (same_shape _ _ _ _ _ _ W W' H1 H2 E) as S.
    destruct d' as [| |kd' name' items']; try easy. destruct S as [<- <-]. clear E E1 E2 H1 H2.
    pose proof (wf_items _ _ _ W) as WI. pose proof (wf_items _ _ _ W') as WI'.
    assert (G : commas (map item items) ++ closes kd ++ k = commas (map item items') ++ closes kd ++ k').
    { cbn [wf] in W, W'. cbn [compact] in E0.
      destruct kd; [destruct items; [tauto|]; destruct items'; [tauto|]|destruct items; [tauto|]; destruct items'; [tauto|]|];
        rewrite <- !app_assoc in E0; apply app_inv_head in E0; apply app_inv_head in E0; exact E0. }
    assert (V : forall l v its r, (match kd with KStruct => l <> [] /\ word l | _ => l = [] end) -> wf v -> kd = KList ->
              commas (map item ((l, v) :: its)) ++ closes kd ++ r = lit "]" ++ k \/ 
              commas (map item ((l, v) :: its)) ++ closes kd ++ r = lit "]" ++ k' -> False).
    { intros l v its r L Wv -> H. cbn in L. subst l. cbn [map commas label app] in H. rewrite <- app_assoc in H.
      set (rest := flat_map _ _ ++ _) in H.
      assert (FR : follows rest).
      { subst rest. destruct its; [left; eexists; eexists; split; [reflexivity|cbn; auto]|left; eexists; eexists; split; [reflexivity|cbn; auto]]. }
      destruct (compact_shape v rest Wv FR) as (w1 & t1 & Q & Hs). rewrite Q in H.
      pose proof (shape_word _ _ _ Wv Hs) as Ww.
      destruct w1 as [|x w1].
      - destruct v as [s|s|[] n i]; cbn [shape] in Hs; destruct Hs as [Hn Ht].
        + cbn in Wv. subst s. tauto.
        + destruct Ht as [? ->]. destruct H; discriminate.
        + cbn in Wv. subst n. tauto.
        + destruct Ht as [? ->]. destruct H; discriminate.
        + destruct Ht as [? ->]. destruct H; discriminate.
      - unfold word in Ww. cbn in Ww. apply andb_true_iff in Ww as [Ww _].
        destruct H as [H|H]; injection H as -> _; discriminate. }
    destruct items as [|[l v] items], items' as [|[l' v'] items'].
    + cbn [map commas app] in G. apply app_inv_head in G. easy.
    + exfalso. destruct kd; cbn [wf] in W; try tauto.
      inversion WI' as [|? ? [L2 W2] _]; subst. cbn [map commas app closes] in G. eapply (V l' v' items' k'); [exact L2|exact W2|reflexivity|left; symmetry; exact G].
    + exfalso. destruct kd; cbn [wf] in W'; try tauto.
      inversion WI as [|? ? [L2 W2] _]; subst. eapply (V l v items k); [exact L2|exact W2|reflexivity|right; exact G].
    + cbn [map commas] in G. rewrite <- !app_assoc in G.
      inversion WI as [|? ? [L1 W1] WI1]; subst. inversion WI' as [|? ? [L2 W2] WI2]; subst. inversion IH as [|? ? IH1 IH2]; subst. cbn [fst snd] in *.
      apply (label_split kd) in G as [-> G]; [|assumption|assumption].
      assert (FL : forall its r, follows (flat_map (fun y => lit ", " ++ y) (map item its) ++ closes kd ++ r)).
      { intros [|it its] r; cbn [map flat_map app].
        - destruct kd; [right; eexists; reflexivity|left; eexists; eexists; split; [reflexivity|cbn; auto]|left; eexists; eexists; split; [reflexivity|cbn; auto]].
        - left. eexists; eexists; split; [reflexivity|cbn; auto]. }
      apply IH1 in G as [-> G]; [|assumption|assumption|apply FL|apply FL].
      apply tail_split in G as [-> ->]; easy.
Qed.

(** *** {:#?} *)

(** Lines that are all complete: [start] says whether a line begins here. *)
Fixpoint ended (start : bool) (s : str) : Prop :=
  match s with [] => start = true | c :: r => ended (c =? 10) r end.
Lemma ended_app u r : forall b, ended true r -> ended b (u ++ 10 :: r).
Proof. induction u as [|c u IH]; intros b H; cbn; [exact H|]. now apply IH. Qed.
Lemma pad_split c c' r r' : c <> 32 -> c' <> 32 -> forall u b u', ended b u -> ended b u' ->
  pad b u ++ c :: r = pad b u' ++ c' :: r' -> u = u' /\ c :: r = c' :: r'.
Proof.
  intros N N'. induction u as [|x u IH]; intros b [|y u'] H H' E; cbn [pad app ended] in *.
  - easy.
  - subst b. cbn in E. now injection E as -> _.
  - subst b. cbn in E. now injection E as <- _.
  - rewrite <- !app_assoc in E. apply app_inv_head in E. cbn [app] in E. injection E as -> E.
    apply IH in E as [-> ->]; easy.
Qed.

Notation line := (fun it : str * dv => let (l, v) := it in label l ++ pretty printable v ++ [44; 10]).
Lemma lines_ended items : ended true (flat_map line items).
Proof.
  induction items as [|[l v] items IH]; [reflexivity|]. cbn [flat_map].
  replace ((label l ++ pretty printable v ++ [44; 10]) ++ flat_map line items)
    with ((label l ++ pretty printable v ++ [44]) ++ 10 :: flat_map line items) by (rewrite <- !app_assoc; reflexivity).
  now apply ended_app.
Qed.
Lemma lines_split k items : Forall (fun it => separates (pretty printable) (snd it)) items ->
  Forall (fun it => match k with KStruct => fst it <> [] /\ word (fst it) | _ => fst it = [] end /\ wf (snd it)) items ->
  forall items',
  Forall (fun it => match k with KStruct => fst it <> [] /\ word (fst it) | _ => fst it = [] end /\ wf (snd it)) items' ->
  flat_map line items = flat_map line items' -> items = items'.
Proof.
  assert (NE : forall l v its, flat_map line ((l, v) :: its) <> []).
  { intros l v its H. cbn [flat_map] in H. apply app_eq_nil in H as [H _]. apply app_eq_nil in H as [_ H].
    apply app_eq_nil in H as [_ H]. discriminate. }
  assert (FL : forall r, follows (44 :: 10 :: r)) by (intros r; left; eexists; eexists; split; [reflexivity|cbn; auto]).
  intros HS HW. induction HS as [|[l v] items S1 HS IH]; intros [|[l' v'] items'] HW' E.
  - easy.
  - exfalso. now apply (NE l' v' items').
  - exfalso. now apply (NE l v items).
  - cbn [flat_map] in E. rewrite <- !app_assoc in E. cbn [app] in E.
    inversion HW as [|? ? [L1 W1] HW1]; subst. inversion HW' as [|? ? [L2 W2] HW2]; subst. cbn [fst snd] in *.
    apply (label_split k) in E as [-> E]; [|assumption|assumption].
    apply S1 in E as [-> E]; [|assumption|assumption|apply FL|apply FL].
    injection E as E. apply IH in E as ->; easy.
Qed.
Lemma pretty_separates : forall d, separates (pretty printable) d.
Proof.
  apply dv_ind2.
  - intros s W d' k k' W' F F' E.
    destruct (pretty_shape _ k W F) as (w & t & E1 & H1), (pretty_shape d' k' W' F') as (w' & t' & E2 & H2).
    rewrite E1, E2 in E. pose proof (same_shape _ _ _ _ _ _ W W' H1 H2 E) as S. destruct d' as [s'| |]; try easy.
    destruct S as [-> _]. split; [reflexivity|]. rewrite <- E1, <- E2 in E. cbn [pretty] in E. now apply app_inv_head in E.
  - intros s W d' k k' W' F F' E.
    destruct (pretty_shape _ k W F) as (w & t & E1 & H1), (pretty_shape d' k' W' F') as (w' & t' & E2 & H2).
    pose proof E as E0. rewrite E1, E2 in E. pose proof (same_shape _ _ _ _ _ _ W W' H1 H2 E) as S. destruct d' as [|s'|]; try easy.
    cbn [pretty] in E0. apply quoted_inj in E0 as [-> ->]; easy.
  - intros kd name items IH W d' k k' W' F F' E.
    destruct (pretty_shape _ k W F) as (w & t & E1 & H1), (pretty_shape d' k' W' F') as (w' & t' & E2 & H2).
    pose proof E as E0. rewrite E1, E2 in E. pose proof (same_shape _ _ _ _ _ _ W W' H1 H2 E) as S.
    destruct d' as [| |kd' name' items']; try easy. destruct S as [<- <-]. clear E E1 E2 H1 H2.
    pose proof (wf_items _ _ _ W) as WI. pose proof (wf_items _ _ _ W') as WI'.
    assert (G : pad true (flat_map line items) ++ closes_line kd ++ k = pad true (flat_map line items') ++ closes_line kd ++ k').
    { cbn [wf] in W, W'. cbn [pretty] in E0.
      destruct kd, items as [|it items], items' as [|it' items']; try tauto; rewrite <- !app_assoc in E0; apply app_inv_head in E0;
        try (apply app_inv_head in E0; exact E0); try discriminate E0.
      apply app_inv_head in E0. cbn [flat_map pad app closes_line]. now rewrite E0. }
    assert (Cl : exists c, closes_line kd = [c] /\ c <> 32) by (destruct kd; eexists; (split; [reflexivity|discriminate])).
    destruct Cl as (c & Ec & Nc). rewrite Ec in G. cbn [app] in G.
    apply pad_split in G as [G Gk]; [|exact Nc|exact Nc|apply lines_ended|apply lines_ended].
    apply (lines_split kd) in G as ->; [|assumption|assumption|assumption]. injection Gk as ->. easy.
Qed.
End Texts.

(** *** Objects *)

Lemma word_app a b : word a -> word b -> word (a ++ b).
Proof. unfold word. intros A B. now rewrite forallb_app, A, B. Qed.
Lemma digits_word s : Forall is_digit s -> word s.
Proof.
  unfold word. intros H. apply forallb_forall. intros c Hc. apply (Forall_in _ _ _ H) in Hc. unfold is_digit in Hc. unfold wordb.
  destruct ((48 <=? c) && (c <=? 57)) eqn:E; [reflexivity|lia].
Qed.
Lemma int_word n : word (show_int n).
Proof.
  unfold word. apply forallb_forall. intros c Hc. pose proof (Forall_in _ _ _ (show_int_chars n) Hc) as [D|D].
  - unfold is_digit in D. unfold wordb. destruct ((48 <=? c) && (c <=? 57)) eqn:E; [reflexivity|lia].
  - now subst.
Qed.
Lemma show_int_inj n m : show_int n = show_int m -> n = m.
Proof.
  intros E. pose proof (show_int_denotes n) as A. pose proof (show_int_denotes m) as B. rewrite <- E in B.
  set (lo := Z.min 0 (Z.min n m)). set (hi := Z.max 0 (Z.max n m)).
  assert (P1 : parse_int true lo hi (show_int n) = Some n) by (apply parse_int_spec; [lia|split; [exact A|lia]]).
  assert (P2 : parse_int true lo hi (show_int n) = Some m) by (apply parse_int_spec; [lia|split; [exact B|lia]]).
  congruence.
Qed.
Lemma uint_word n : 0 <= n -> word (show_uint n).
Proof. intros H. now apply digits_word, show_uint_chars. Qed.
Lemma zeros_word k : word (repeat 48 k).
Proof. induction k as [|k IH]; [reflexivity|]. exact IH. Qed.
Lemma firstn_word k : forall s, word s -> word (firstn k s).
Proof.
  unfold word. induction k as [|k IH]; intros [|c s] H; cbn in *; try reflexivity. apply andb_true_iff in H as [-> H]. now rewrite IH.
Qed.
Lemma skipn_word k : forall s, word s -> word (skipn k s).
Proof.
  unfold word. induction k as [|k IH]; intros [|c s] H; cbn in *; try reflexivity; try exact H. apply andb_true_iff in H as [_ H]. now apply IH.
Qed.
Lemma coord_word i : in_i32 i -> word (debug_coord i) /\ debug_coord i <> [].
Proof.
  intros Hi. split.
  - unfold debug_coord. destruct (i =? 0) eqn:E0; [reflexivity|].
    destruct (strip10 10 (Z.abs i) (-7)) as [c e] eqn:Es.
    pose proof (strip10_spec 10 (Z.abs i) (-7) c e ltac:(lia) Es) as (A & _).
    pose proof (uint_word c ltac:(lia)) as U.
    apply word_app; [now destruct (i <? 0)|]. destruct (Z.abs i <? 1000).
    + unfold exponential. destruct (show_uint c) as [|d r]; [reflexivity|].
      change (d :: r) with ([d] ++ r) in U. unfold word in U. rewrite forallb_app in U. apply andb_true_iff in U as [U1 U2].
      change (word ([d] ++ (match r with [] => [] | _ => lit "." ++ r end) ++ lit "e" ++ show_int (e + Z.of_nat (length r)))).
      apply word_app; [exact U1|]. apply word_app; [|apply word_app; [reflexivity|apply int_word]].
      destruct r; [reflexivity|]. apply word_app; [reflexivity|exact U2].
    + assert (P : word (positional c e)).
      { unfold positional. destruct (0 <=? e); [apply word_app; [exact U|apply zeros_word]|].
        destruct (Nat.leb _ _); [apply word_app; [reflexivity|apply word_app; [apply zeros_word|exact U]]|].
        apply word_app; [now apply firstn_word|apply word_app; [reflexivity|now apply skipn_word]]. }
      unfold positional1. destruct (0 <=? e); [apply word_app; [exact P|reflexivity]|exact P].
  - intros E. pose proof (C114_round_trip i Hi) as R. rewrite E in R. vm_compute in R. discriminate.
Qed.
Lemma coord_inj i j : in_i32 i -> in_i32 j -> debug_coord i = debug_coord j -> i = j.
Proof. intros Hi Hj E. pose proof (C114_round_trip i Hi). pose proof (C114_round_trip j Hj). congruence. Qed.
Lemma int_nonempty n : show_int n <> [].
Proof. intros E. pose proof (show_int_denotes n) as D. rewrite E in D. destruct D as (ds & N & _ & [[H _]|[[H _]|(_ & H & _)]]); congruence. Qed.

(** A form of printing values of a type: well formed and different for different values. *)
Definition good {A} (P : A -> Prop) (f : A -> dv) : Prop :=
  (forall x, P x -> wf (f x)) /\ (forall x y, P x -> P y -> f x = f y -> x = y).
Lemma good_int : good (fun _ => True) d_int.
Proof.
  split.
  - intros x _. cbn. split; [apply int_nonempty|apply int_word].
  - intros x y _ _ [= E]. now apply show_int_inj.
Qed.
Lemma good_text : good valid_str DText.
Proof. split; [easy|]. now intros x y _ _ [= E]. Qed.
Lemma good_bool : good (fun _ => True) d_bool.
Proof. split; [intros [] _; (split; [discriminate|reflexivity])|]. now intros [] [] _ _ E. Qed.
Lemma good_option {A} (P : A -> Prop) f : good P f -> good (fun o => forall x, o = Some x -> P x) (d_option f).
Proof.
  intros [W I]. split.
  - intros [x|] H; cbn.
    + split; [reflexivity|]. split; [discriminate|]. split; [|exact Logic.I]. split; [reflexivity|]. now apply W, H.
    + split; [discriminate|reflexivity].
  - intros [x|] [y|] Hx Hy E; cbn in E; try discriminate; [|reflexivity]. injection E as E. f_equal. apply I; auto.
Qed.
Lemma good_list {A} (P : A -> Prop) f : good P f -> good (Forall P) (d_list f).
Proof.
  intros [W I]. split.
  - intros l H. cbn. split; [reflexivity|]. split; [reflexivity|]. induction H as [|x l Hx _ IH]; cbn; [exact Logic.I|].
    split; [|exact IH]. split; [reflexivity|now apply W].
  - intros l l' H H' E. unfold d_list in E. injection E as E. revert l' H' E.
    induction H as [|x l Hx H IH]; intros [|y l'] H' E; cbn in E; try discriminate; [reflexivity|].
    injection E as E1 E2. inversion H'; subst. f_equal; [apply I; assumption|now apply IH].
Qed.
Lemma good_coord : good in_i32 d_coord.
Proof.
  split.
  - intros x H. destruct (coord_word x H). now split.
  - intros x y Hx Hy [= E]. now apply coord_inj.
Qed.
Lemma good_latlon : good value_latlon d_latlon.
Proof.
  split.
  - intros [x y] [Hx Hy]. cbn [fst snd] in *. pose proof (proj1 good_coord x Hx). pose proof (proj1 good_coord y Hy).
    unfold d_latlon. cbn [wf fold_right fst snd]. repeat split; try assumption; try discriminate; try (now cbn in *).
  - intros [x y] [x' y'] [Hx Hy] [Hx' Hy'] E. cbn [fst snd] in *. unfold d_latlon in E. cbn [fst snd] in E.
    injection E as E1 E2. f_equal; now apply coord_inj.
Qed.
Lemma good_tag : good (fun t => valid_str (fst t) /\ valid_str (snd t)) d_tag.
Proof.
  split.
  - intros [x y] [Hx Hy]. cbn in *. repeat split; try assumption; try discriminate; try (now cbn in *).
  - intros [x y] [x' y'] _ _ E. unfold d_tag in E. cbn in E. now injection E as -> ->.
Qed.
Lemma good_member : good (fun m => valid_str (snd m)) d_member.
Proof.
  split.
  - intros [[t n] r] H. unfold d_member. cbn [wf fold_right snd] in *. repeat split; try assumption; try discriminate.
    + now destruct t.
    + apply int_nonempty.
    + apply int_word.
  - intros [[t n] r] [[t' n'] r'] _ _ E. unfold d_member, d_objtype, d_int in E. injection E as E1 E2 ->.
    apply show_int_inj in E2 as ->. destruct t, t'; try discriminate; reflexivity.
Qed.
Lemma good_timestamp : good (fun t => forall s, t = ISOString s -> valid_str s) d_timestamp.
Proof.
  split.
  - intros [s|n] H; cbn; repeat split; try discriminate; [now apply H|apply int_nonempty|apply int_word].
  - intros [s|n] [s'|n'] _ _ E; cbn in E; try discriminate; injection E as E; [now subst|]. f_equal. now apply show_int_inj.
Qed.

Lemma meta_good m : value_meta m -> fold_right (fun it P => (let (l, v) := (it : str * dv) in (l <> [] /\ word l) /\ wf v) /\ P) True (d_meta m).
Proof.
  intros [Hu Ht]. unfold d_meta. cbn [fold_right].
  repeat match goal with |- _ /\ _ => split end; try exact Logic.I; try discriminate; try reflexivity.
  - now apply good_int.
  - now apply (good_option _ _ good_int).
  - now apply good_bool.
  - now apply (good_option _ _ good_int).
  - apply (good_option _ _ good_timestamp). intros t E s ->. now apply Ht.
  - now apply (good_option _ _ good_int).
  - apply (good_option _ _ good_text). intros u E. now apply Hu.
Qed.
Lemma meta_inj m m' r r' : value_meta m -> value_meta m' -> d_meta m ++ r = d_meta m' ++ r' -> m = m' /\ r = r'.
Proof.
  intros [Hu Ht] [Hu' Ht'] E. unfold d_meta in E. cbn [app] in E. injection E as E1 E2 E3 E4 E5 E6 E7 ->.
  split; [|reflexivity]. destruct m as [a b c d e f g], m' as [a' b' c' d' e' f' g']. cbn [m_id m_version m_deleted m_changeset m_timestamp m_uid m_user] in *.
  apply show_int_inj in E1 as ->.
  apply (proj2 (good_option _ _ good_int)) in E2 as ->; [|easy|easy].
  assert (E3' : d_bool c = d_bool c') by (unfold d_bool; f_equal; exact E3). apply (proj2 good_bool) in E3' as ->; [|easy|easy].
  apply (proj2 (good_option _ _ good_int)) in E4 as ->; [|easy|easy].
  apply (proj2 (good_option _ _ good_timestamp)) in E5 as ->; [|intros t -> s ->; now apply Ht|intros t -> s ->; now apply Ht'].
  apply (proj2 (good_option _ _ good_int)) in E6 as ->; [|easy|easy].
  apply (proj2 (good_option _ _ good_text)) in E7 as ->; [easy|exact Hu|exact Hu'].
Qed.

(** A variant with a struct of the common fields and two more. *)
Lemma struct_wf v name m f1 d1 f2 d2 : word v -> v <> [] -> word name -> name <> [] -> value_meta m ->
  f1 <> [] /\ word f1 -> wf d1 -> f2 <> [] /\ word f2 -> wf d2 ->
  wf (DGroup KTuple v [([], DGroup KStruct name (d_meta m ++ [(f1, d1); (f2, d2)]))]).
Proof.
  intros Wv Nv Wn Nn Hm F1 W1 F2 W2. cbn [wf fold_right]. split; [exact Wv|]. split; [discriminate|].
  split; [|exact Logic.I]. split; [reflexivity|]. split; [exact Wn|]. split; [split; [exact Nn|discriminate]|].
  rewrite fold_right_app. cbn [fold_right].
  pose proof (meta_good m Hm) as G. revert G. generalize (d_meta m). intros l G.
  induction l as [|[x y] l IH]; cbn [fold_right] in *; [tauto|]. destruct G as [G1 G2]. split; [exact G1|now apply IH].
Qed.

Lemma struct_inj v name x y :
  DGroup KTuple v [([], DGroup KStruct name x)] = DGroup KTuple v [([], DGroup KStruct name y)] -> x = y.
Proof. now intros [= ->]. Qed.
Lemma fields_inj (f1 f2 : str) (a b a' b' : dv) : [(f1, a); (f2, b)] = [(f1, a'); (f2, b')] -> a = a' /\ b = b'.
Proof. now intros [= -> ->]. Qed.

Lemma good_s : good value_s d_sobj.
Proof.
  split.
  - intros [n|w|r] (Hm & Ht & Hx); cbn [s_meta s_tags] in *; unfold d_sobj;
      (apply struct_wf; try exact Hm; try discriminate; try reflexivity; try (split; [discriminate|reflexivity]); try (now apply (good_list _ _ good_tag))).
    + now apply (good_option _ _ good_latlon).
    + apply (good_list _ _ good_int). now apply Forall_forall.
    + now apply (good_list _ _ good_member).
  - intros [n|w|r] [n'|w'|r'] (Hm & Ht & Hx) (Hm' & Ht' & Hx') E; cbn [s_meta s_tags] in *; unfold d_sobj in E; try discriminate E.
    + apply struct_inj in E. destruct n as [m t p], n' as [m' t' p']. cbn [sn_meta sn_tags sn_latlon] in *.
      apply meta_inj in E as [-> E]; [|assumption|assumption].
      apply fields_inj in E as [E1 E2].
      apply (proj2 (good_list _ _ good_tag)) in E1 as ->; [|assumption|assumption].
      apply (proj2 (good_option _ _ good_latlon)) in E2 as ->; [reflexivity|assumption|assumption].
    + apply struct_inj in E. destruct w as [m t p], w' as [m' t' p']. cbn [sw_meta sw_tags sw_nodes] in *.
      apply meta_inj in E as [-> E]; [|assumption|assumption].
      apply fields_inj in E as [E1 E2].
      apply (proj2 (good_list _ _ good_tag)) in E1 as ->; [|assumption|assumption].
      apply (proj2 (good_list _ _ good_int)) in E2 as ->; [reflexivity|now apply Forall_forall|now apply Forall_forall].
    + apply struct_inj in E. destruct r as [m t p], r' as [m' t' p']. cbn [sr_meta sr_tags sr_members] in *.
      apply meta_inj in E as [-> E]; [|assumption|assumption].
      apply fields_inj in E as [E1 E2].
      apply (proj2 (good_list _ _ good_tag)) in E1 as ->; [|assumption|assumption].
      apply (proj2 (good_list _ _ good_member)) in E2 as ->; [reflexivity|assumption|assumption].
Qed.
Lemma good_a ty : word ty -> good value_a (d_aobj ty).
Proof.
  intros Wt. split.
  - assert (N : forall s, s <> [] -> ty ++ s <> []) by (intros s H E; apply app_eq_nil in E as [_ E]; congruence).
    intros [n|w|r] (Hm & Hx); cbn [a_meta] in *; unfold d_aobj;
      (apply struct_wf; try exact Hm; try (apply N; discriminate); try discriminate; try (apply word_app; [exact Wt|reflexivity]); try reflexivity;
       try (split; [discriminate|reflexivity])).
    + apply (good_option _ _ (good_list _ _ good_tag)). apply Hx.
    + apply (good_option _ _ good_latlon). apply Hx.
    + now apply (good_list _ _ good_tag).
    + apply (good_list _ _ good_int). now apply Forall_forall.
    + apply (good_list _ _ good_tag). apply Hx.
    + apply (good_list _ _ good_member). apply Hx.
  - intros [n|w|r] [n'|w'|r'] (Hm & Hx) (Hm' & Hx') E; cbn [a_meta] in *; unfold d_aobj in E; try discriminate E.
    + apply struct_inj in E. destruct n as [m t p], n' as [m' t' p']. cbn [an_meta an_tags an_latlon] in *. destruct Hx as [Ht Hx], Hx' as [Ht' Hx'].
      apply meta_inj in E as [-> E]; [|assumption|assumption].
      apply fields_inj in E as [E1 E2].
      apply (proj2 (good_option _ _ (good_list _ _ good_tag))) in E1 as ->; [|assumption|assumption].
      apply (proj2 (good_option _ _ good_latlon)) in E2 as ->; [reflexivity|assumption|assumption].
    + apply struct_inj in E. destruct w as [m t p], w' as [m' t' p']. cbn [aw_meta aw_tags aw_nodes] in *.
      apply meta_inj in E as [-> E]; [|assumption|assumption].
      apply fields_inj in E as [E1 E2].
      apply (proj2 (good_list _ _ good_tag)) in E1 as ->; [|assumption|assumption].
      apply (proj2 (good_list _ _ good_int)) in E2 as ->; [reflexivity|now apply Forall_forall|now apply Forall_forall].
    + apply struct_inj in E. destruct r as [m t p], r' as [m' t' p']. cbn [ar_meta ar_tags ar_members] in *. destruct Hx as [Ht Hx], Hx' as [Ht' Hx'].
      apply meta_inj in E as [-> E]; [|assumption|assumption].
      apply fields_inj in E as [E1 E2].
      apply (proj2 (good_list _ _ good_tag)) in E1 as ->; [|assumption|assumption].
      apply (proj2 (good_list _ _ good_member)) in E2 as ->; [reflexivity|assumption|assumption].
Qed.

(** ** C120 *)

(** Objects with the same Debug text, in either form, are the same. *)
Theorem C120_same : forall printable,
  (forall a b, value_s a -> value_s b ->
     (compact printable (d_sobj a) = compact printable (d_sobj b) <-> a = b) /\
     (pretty printable (d_sobj a) = pretty printable (d_sobj b) <-> a = b)) /\
  (forall ty a b, ty = lit "Arc" \/ ty = lit "Rc" -> value_a a -> value_a b ->
     (compact printable (d_aobj ty a) = compact printable (d_aobj ty b) <-> a = b) /\
     (pretty printable (d_aobj ty a) = pretty printable (d_aobj ty b) <-> a = b)).
Proof.
  intros printable.
  assert (F : follows [10]) by (left; exists 10, []; cbn; split; [reflexivity|]; auto 10).
  assert (G : forall A (P : A -> Prop) f a b, good P f -> P a -> P b ->
     (compact printable (f a) = compact printable (f b) <-> a = b) /\
     (pretty printable (f a) = pretty printable (f b) <-> a = b)).
  { intros A P f a b [W I] Ha Hb. split; (split; [|now intros ->]); intros E.
    - apply I; [assumption|assumption|]. refine (proj1 (compact_separates printable _ (W _ Ha) _ [10] [10] (W _ Hb) F F _)). now rewrite E.
    - apply I; [assumption|assumption|]. refine (proj1 (pretty_separates printable _ (W _ Ha) _ [10] [10] (W _ Hb) F F _)). now rewrite E. }
  split.
  - intros a b Ha Hb. apply (G _ value_s); [apply good_s|assumption|assumption].
  - intros ty a b Hty Ha Hb. apply (G _ value_a); [|assumption|assumption]. apply good_a. now destruct Hty as [-> | ->].
Qed.
Print Assumptions C120_same.

(** What osmio-osc-debug writes shows exactly which objects the reader returned, even when
    the message of a panic comes behind it (it begins with a line break or the word
    "thread", never with a bracket). *)
Theorem C120_program : forall printable place os os' msg msg', Forall value_s os -> Forall value_s os' ->
  (forall r, msg <> 91 :: r) -> (forall r, msg' <> 91 :: r) ->
  osc_debug printable place os ++ msg = osc_debug printable place os' ++ msg' -> os = os' /\ msg = msg'.
Proof.
  intros printable place os os' msg msg' H H' N N' E.
  assert (F : forall r, follows (10 :: r)) by (intros r; left; eexists; eexists; split; [reflexivity|cbn; auto 10]).
  revert os' H' E. induction H as [|o os Ho H IH]; intros [|o' os'] H' E; unfold osc_debug in E; cbn [flat_map app] in E.
  - easy.
  - exfalso. rewrite <- !app_assoc in E. eapply N. exact E.
  - exfalso. rewrite <- !app_assoc in E. eapply N'. symmetry. exact E.
  - rewrite <- !app_assoc in E. apply app_inv_head in E. rewrite <- ?app_assoc in E. apply app_inv_head in E. rewrite <- ?app_assoc in E. apply app_inv_head in E.
    inversion H' as [|? ? Ho' H1']; subst. rewrite <- ?app_assoc in E. cbn [app] in E.
    destruct good_s as [W I].
    apply pretty_separates in E as [E1 E2]; [|now apply W|now apply W|apply F|apply F].
    injection E2 as E2. apply I in E1 as ->; [|assumption|assumption]. apply IH in E2 as [-> ->]; easy.
Qed.
Print Assumptions C120_program.

(** Objects that [==] takes to be the same can have different Debug texts: the text shows
    how the timestamp is stored. *)
Definition ex_dbg (t : timestamp) : sobj :=
  SNode (SN (Meta 17 (Some 2) false None (Some t) (Some 5) (Some (lit "a""b" ++ [10; 233]))) [(lit "k", lit "v")] (Some (515000000, -1200))).
Theorem C120_equal_refuted : forall printable, exists a b, value_s a /\ value_s b /\ s_eqb a b = true /\
  compact printable (d_sobj a) <> compact printable (d_sobj b) /\ pretty printable (d_sobj a) <> pretty printable (d_sobj b).
Proof.
  intros printable. exists (ex_dbg (ISOString (lit "1970-01-01T00:00:00Z"))), (ex_dbg (EpochNumber 0)).
  assert (V : forall s, forallb scalarb s = true -> valid_str s).
  { intros s H. unfold valid_str. apply Forall_forall. intros c Hc. apply scalarb_iff. rewrite forallb_forall in H. now apply H. }
  assert (K : forall t, (forall s, t = ISOString s -> valid_str s) -> value_s (ex_dbg t)).
  { intros t Ht. unfold value_s, ex_dbg. cbn [s_meta s_tags sn_meta sn_tags sn_latlon]. split; [split|split].
    - intros u [= <-]. now apply V.
    - intros u [= ->]. now apply Ht.
    - constructor; [split; now apply V|constructor].
    - intros p [= <-]. split; unfold in_i32; cbn [fst snd]; lia. }
  assert (A : value_s (ex_dbg (ISOString (lit "1970-01-01T00:00:00Z")))) by (apply K; intros s [= <-]; now apply V).
  assert (B : value_s (ex_dbg (EpochNumber 0))) by (apply K; discriminate).
  split; [exact A|]. split; [exact B|]. split; [vm_compute; reflexivity|].
  destruct (C120_same printable) as [S _]. destruct (S _ _ A B) as [S1 S2].
  split; intros E; [apply S1 in E|apply S2 in E]; discriminate E.
Qed.
Print Assumptions C120_equal_refuted.

(** The texts themselves, ASCII characters being printed as they are. *)
Example C120_ex :
  compact (fun c => (32 <=? c) && (c <? 127)) (d_sobj (ex_dbg (EpochNumber 0)))
  = lit "Node(StringNode { _id: 17, _version: Some(2), _deleted: false, _changeset_id: None, _timestamp: Some(EpochNumber(0)), _uid: Some(5), _user: Some(""a\""b\n\u{e9}""), _tags: [(""k"", ""v"")], _lat_lon: Some((51.5, -0.00012)) })" /\
  pretty (fun c => (32 <=? c) && (c <? 127)) (d_sobj (SWay (SW (Meta 3 None true None None None None) [] [1; -2])))
  = flat_map (fun l => l ++ [10]) (map lit
    ["Way("; "    StringWay {"; "        _id: 3,"; "        _version: None,"; "        _deleted: true,"; "        _changeset_id: None,";
     "        _timestamp: None,"; "        _uid: None,"; "        _user: None,"; "        _tags: [],"; "        _nodes: ["; "            1,";
     "            -2,"; "        ],"; "    },"]%string) ++ lit ")".
Proof. split; vm_compute; reflexivity. Qed.
