(** C128: what is left of an OPL file that has lost its end. *)
From Coq Require Import String ZArith List Bool Lia Permutation.
From Coq Require Import ZifyBool ZifyNat.
From Verif Require Import Base SpecNum Ints Utf8 SpecOpl Opl SpecOplLine OplFacts PropsNum PropsOplLine PropsOpl PropsOplText.
From Verif Require XmlCut PropsExact3.
Import ListNotations.
Open Scope Z_scope.

Section Cut.
Variable C : Type.
Variables parse_lon parse_lat : str -> option C.
Notation yields := (line_yields C parse_lon parse_lat).

(** ** Specification *)

(** The nodes and members at the beginning of a list; the last of them may have lost the end
    of its number, and of its role. *)
Definition cut_nodes (ns ns' : list Z) : Prop :=
  exists k n n' a b, nth_error ns k = Some n /\ ns' = firstn k ns ++ [n'] /\ id_text (a ++ b) n /\ id_text a n'.
Definition cut_members (ms ms' : list (char * Z * str)) : Prop :=
  exists k t i r r', nth_error ms k = Some (t, i, r ++ r') /\ ms' = firstn k ms ++ [(t, i, r)].

(** The object [o'] that is read from the beginning of the line of [o]. *)
Definition cut_object (o o' : oobj C) : Prop :=
  match o, o' with
  | ONode m t lon lat, ONode m' t' lon' lat' =>
      m' = m /\ Permutation t t' /\ lon' = lon /\ exists a b, coord_of parse_lat (a ++ b) lat /\ coord_of parse_lat a lat'
  | OWay m t ns, OWay m' t' ns' => m' = m /\ Permutation t t' /\ cut_nodes ns ns'
  | ORel m t ms, ORel m' t' ms' => m' = m /\ Permutation t t' /\ cut_members ms ms'
  | _, _ => False
  end.

(** ** Lemmas *)

Lemma pieces_more c p s ps : ~ In c p -> pieces c (p ++ c :: s) ps -> exists ps', ps = p :: ps' /\ pieces c s ps'.
Proof.
  intros N H. exists (split_on c s). split; [|now apply pieces_split]. apply pieces_split in H. subst ps. apply pieces_split.
  apply (pc_more c p s); [exact N|now apply pieces_split].
Qed.
Lemma pieces_cut c p : forall q ps ps', pieces c (p ++ q) ps -> pieces c p ps' ->
  exists k x w, ps' = firstn k ps ++ [x] /\ nth_error ps k = Some (x ++ w).
Proof.
  intros q ps ps' H H'. revert q ps H. induction H' as [s N|p1 s ps' N _ IH]; intros q ps H.
  - exists O. inversion H as [s0 N0 E|p0 s0 ps0 N0 H0 E]; subst.
    + now exists s, q.
    + assert (exists w, p0 = s ++ w) as (w & ->); [|now exists s, w].
      clear - N E. revert p0 E. induction s as [|x s IH]; intros p0 E; [now exists p0|].
      destruct p0 as [|y p0]; cbn [app] in E; injection E as E1 E2; [elim N; left; congruence|]. subst y.
      destruct (IH ltac:(intros I; apply N; now right) p0 E2) as (w & ->). now exists w.
  - cbn [app] in H. rewrite <- app_assoc in H. cbn [app] in H. apply pieces_more in H as (ps0 & -> & H); [|exact N].
    destruct (IH q ps0 H) as (k & x & w & -> & E). now exists (S k), x, w.
Qed.

Lemma fields_cut p q fs fs' : fields_of (p ++ q) fs -> fields_of p fs' ->
  exists k c v w, fs' = firstn k fs ++ [(c, v)] /\ nth_error fs k = Some (c, v ++ w).
Proof.
  intros (ps & Hp & HF) (ps' & Hp' & HF'). destruct (pieces_cut _ _ _ _ _ Hp Hp') as (k & x & w & -> & E). clear Hp Hp'.
  revert k E fs' HF'. induction HF as [|y f ps fs Hy HF IH]; intros k E fs' HF'; [now destruct k|].
  destruct k as [|k]; cbn [nth_error firstn app] in *.
  - injection E as ->. inversion HF' as [|? f' ? ? Hf' HF0]; subst. inversion HF0; subst. destruct f as [c v], f' as [c' v'], Hy as [Ey Ly], Hf' as [Ef Lf]. cbn [fst snd] in *.
    subst x. cbn [app] in Ey. injection Ey as -> <-. exists O, c, v', w. now split.
  - inversion HF' as [|? f' ? fs0 Hf' HF0]; subst. destruct (IH k E fs0 HF0) as (j & c & v & u & -> & En).
    assert (f' = f) as -> by (eapply field_fun; eassumption). exists (S j), c, v, u. now split.
Qed.

(** Fields before the last are as they were; the last is shorter. *)
Section Fields.
Variables (fs : list (char * str)) (k : nat) (c : char) (v w : str).
Hypothesis E : nth_error fs k = Some (c, v ++ w).
Notation fs' := (firstn k fs ++ [(c, v)]).
Lemma k_lt : (k < length fs)%nat.
Proof. apply nth_error_Some. congruence. Qed.
Lemma nth_before i : (i < k)%nat -> nth_error fs' i = nth_error fs i.
Proof. intros H. pose proof k_lt. rewrite nth_error_app1 by (rewrite firstn_length; lia). clear - H. revert i k H. induction fs as [|f r IH]; intros i [|j] H; [lia| |lia|]; [now destruct i|]. destruct i; [reflexivity|]. cbn. apply IH. lia. Qed.
Lemma value_before i x : (i < k)%nat -> (value_at fs' i x <-> value_at fs i x).
Proof. intros H. unfold value_at. now rewrite nth_before. Qed.
Lemma value_last i x : value_at fs' i x -> (i <= k)%nat /\ exists u, value_at fs i (x ++ u).
Proof.
  intros V. pose proof k_lt as L. assert (Hi : (i <= k)%nat).
  { apply value_at_len in V. rewrite app_length, firstn_length in V. cbn in V. lia. }
  split; [exact Hi|]. destruct (Nat.eq_dec i k) as [->|N].
  - destruct V as (d & V). rewrite nth_error_app2, firstn_length, Nat.min_l, Nat.sub_diag in V by (rewrite ?firstn_length; lia). injection V as <- <-. exists w, c. exact E.
  - exists []. rewrite app_nil_r. now apply value_before in V; [|lia].
Qed.
Lemma meta_same m m' : (7 <= k)%nat -> meta_of fs m -> meta_of fs' m' -> m' = m.
Proof.
  intros H M M'. assert (M0 : meta_of fs' m).
  { unfold meta_of in *. destruct M as ((s0 & V0 & H0) & (s1 & V1 & H1) & (s2 & V2 & H2) & (s3 & V3 & H3) & V4 & (s5 & V5 & H5) & V6).
    repeat split; try (eexists; split; [apply value_before; [lia|eassumption]|eassumption]); apply value_before; try lia; assumption. }
  apply meta_spec in M', M0. congruence.
Qed.
Lemma tags_same t t' : (8 <= k)%nat -> tags_at fs t -> tags_at fs' t' -> Permutation t t'.
Proof.
  intros H T T'. apply tags_at_spec in T as (s & m & V & D & P), T' as (s' & m' & V' & D' & P').
  apply value_before in V'; [|lia]. pose proof (value_at_fun _ _ _ _ V V') as <-. assert (m = m') as <- by congruence.
  now rewrite <- P.
Qed.
Lemma kind_same d : (1 <= k)%nat -> kind_of fs' d -> kind_of fs d.
Proof. intros H (x & K). exists x. now rewrite nth_before in K. Qed.
End Fields.

Lemma id_fun s n n' : id_text s n -> id_text s n' -> n = n'.
Proof. unfold id_text. rewrite <- !C02_parse_i64_exact. congruence. Qed.

Lemma nodes_cut s w ns ns' : nodes_of (s ++ w) ns -> nodes_of s ns' -> cut_nodes ns ns'.
Proof.
  intros (ps & Hp & HF) (ps' & Hp' & HF'). destruct (pieces_cut _ _ _ _ _ Hp Hp') as (k & x & u & -> & E). clear Hp Hp'.
  revert k E ns' HF'. induction HF as [|y n ps ns Hy HF IH]; intros k E ns' HF'; [now destruct k|].
  destruct k as [|k]; cbn [nth_error firstn app] in *.
  - injection E as ->. inversion HF' as [|? n' ? ? Hn' HF0]; subst. inversion HF0; subst.
    exists O, n, n', (tl x), u. repeat split; try apply Hn'; destruct x as [|c x]; cbn [tl app] in *; try apply Hy;
      destruct Hn' as ((ds & Nd & _ & [[Ed _]|[[Ed _]|(_ & Ed & _)]]) & _); congruence.
  - inversion HF' as [|? n' ? ns0 Hn' HF0]; subst. destruct (IH k E ns0 HF0) as (j & m & m' & a & b & En & -> & A & B).
    assert (n' = n) as -> by (eapply id_fun; eassumption). exists (S j), m, m', a, b. split; [exact En|]. split; [reflexivity|]. split; [exact A|exact B].
Qed.

Lemma member_fun p m m' : member p m -> member p m' -> m = m'.
Proof. rewrite <- !member_spec. congruence. Qed.
Lemma member_cut x u m m' : member (x ++ u) m -> member x m' -> fst m' = fst m /\ snd m = snd m' ++ u.
Proof.
  destruct m as [[t i] r], m' as [[t' i'] r']. intros (a & (E & _) & N & I) (a' & (E' & _) & N' & I'). cbn [fst snd] in *. subst x. injection E as <- E.
  assert (X : splitn2 64 (a ++ [64] ++ r) = (a, Some r)) by (apply splitn2_spec; now split).
  assert (Y : splitn2 64 (a' ++ [64] ++ r' ++ u) = (a', Some (r' ++ u))) by (apply splitn2_spec; now split).
  assert (E2 : a' ++ [64] ++ r' ++ u = a ++ [64] ++ r) by (rewrite <- !app_assoc in E; exact E).
  rewrite E2, X in Y. injection Y as <- ->. split; [|reflexivity]. f_equal. eapply id_fun; eassumption.
Qed.
Lemma members_cut s w ms ms' : members_of (s ++ w) ms -> members_of s ms' -> cut_members ms ms'.
Proof.
  intros (ps & Hp & HF) (ps' & Hp' & HF'). destruct (pieces_cut _ _ _ _ _ Hp Hp') as (k & x & u & -> & E). clear Hp Hp'.
  revert k E ms' HF'. induction HF as [|y m ps ms Hy HF IH]; intros k E ms' HF'; [now destruct k|].
  destruct k as [|k]; cbn [nth_error firstn app] in *.
  - injection E as ->. inversion HF' as [|? m' ? ? Hm' HF0]; subst. inversion HF0; subst. destruct (member_cut _ _ _ _ Hy Hm') as [A B].
    destruct m as [[t i] r], m' as [[t' i'] r']. cbn [fst snd] in *. injection A as -> ->. subst r. exists O, t, i, r', u. now split.
  - inversion HF' as [|? m' ? ms0 Hm' HF0]; subst. destruct (IH k E ms0 HF0) as (j & t & i & r & r' & En & ->).
    assert (m' = m) as -> by (eapply member_fun; eassumption). exists (S j), t, i, r, r'. now split.
Qed.
Lemma coord_fun parse s (c c' : option C) : coord_of parse s c -> coord_of parse s c' -> c = c'.
Proof. rewrite <- !coord_spec. congruence. Qed.

(** ** C128 *)

(** The beginning of a line that says an object says, if anything, the same object with a
    shortened last part: the latitude, the list of nodes or the list of members. *)
Theorem C128_line : forall p q o o', says parse_lon parse_lat (p ++ q) o -> says parse_lon parse_lat p o' -> cut_object o o'.
Proof.
  intros p q o o' (fs & HF & O) (fs' & HF' & O'). destruct (fields_cut _ _ _ _ HF HF') as (k & c & v & w & -> & E).
  assert (Q : forall i x, value_at (firstn k fs ++ [(c, v)]) i x -> (i <= k)%nat) by (intros i x V; now apply (value_last fs k c v w E) in V).
  destruct o' as [m' t' lo' la'|m' t' ns'|m' t' ms']; cbn [object_of] in O'.
  - destruct O' as (K & M' & T' & (s8 & V8 & H8) & (s9 & V9 & H9)). pose proof (Q _ _ V9) as L. apply (kind_same fs k c v w E) in K; [|lia].
    destruct o as [m t lo la|m t ns|m t ms]; cbn [object_of] in O; destruct O as (K0 & M & T & O); try (pose proof (kind_fun _ _ _ K K0); discriminate).
    destruct O as ((r8 & U8 & G8) & (r9 & U9 & G9)). cbn [cut_object].
    split; [eapply (meta_same fs k c v w E); eauto; lia|]. split; [eapply (tags_same fs k c v w E); eauto; lia|].
    apply (value_before fs k c v w E) in V8; [|lia]. rewrite (value_at_fun _ _ _ _ V8 U8) in H8. split; [eapply coord_fun; eassumption|].
    apply (value_last fs k c v w E) in V9 as (_ & u & V9). rewrite <- (value_at_fun _ _ _ _ V9 U9) in G9. eauto.
  - destruct O' as (K & M' & T' & (s8 & V8 & H8)). pose proof (Q _ _ V8) as L. apply (kind_same fs k c v w E) in K; [|lia].
    destruct o as [m t lo la|m t ns|m t ms]; cbn [object_of] in O; destruct O as (K0 & M & T & O); try (pose proof (kind_fun _ _ _ K K0); discriminate).
    destruct O as (r8 & U8 & G8). cbn [cut_object].
    split; [eapply (meta_same fs k c v w E); eauto; lia|]. split; [eapply (tags_same fs k c v w E); eauto; lia|].
    apply (value_last fs k c v w E) in V8 as (_ & u & V8). rewrite <- (value_at_fun _ _ _ _ V8 U8) in G8. eapply nodes_cut; eassumption.
  - destruct O' as (K & M' & T' & (s8 & V8 & H8)). pose proof (Q _ _ V8) as L. apply (kind_same fs k c v w E) in K; [|lia].
    destruct o as [m t lo la|m t ns|m t ms]; cbn [object_of] in O; destruct O as (K0 & M & T & O); try (pose proof (kind_fun _ _ _ K K0); discriminate).
    destruct O as (r8 & U8 & G8). cbn [cut_object].
    split; [eapply (meta_same fs k c v w E); eauto; lia|]. split; [eapply (tags_same fs k c v w E); eauto; lia|].
    apply (value_last fs k c v w E) in V8 as (_ & u & V8). rewrite <- (value_at_fun _ _ _ _ V8 U8) in G8. eapply members_cut; eassumption.
Qed.

(** ** Files *)

Lemma firstn_count_nil (b : bytes) : ~ In 10 b -> count_occ Z.eq_dec b 10 = O.
Proof. apply count_occ_not_In. Qed.
Lemma lines_cut b ls' : lines b ls' -> forall b' ls, lines (b ++ b') ls ->
  let k := count_occ Z.eq_dec b 10 in
  ls' = firstn k ls \/ exists x y, nth_error ls k = Some (x ++ y) /\ ls' = firstn k ls ++ [x].
Proof.
  cbn zeta. induction 1 as [|l Hn Hi|l r ls' Hi HL IH]; intros b' ls H.
  - now left.
  - right. rewrite firstn_count_nil by exact Hi. exists l. inversion H as [E|l0 N0 I0 E|l0 r0 ls0 I0 H0 E]; subst.
    + destruct l; [now elim Hn|discriminate].
    + now exists b'.
    + apply app_eq_app in E as (z & [[-> E]|[-> E]]).
      * exists (z ++ [10]). now rewrite app_assoc.
      * destruct z as [|c z]; [rewrite app_nil_r in *; exists [10]; split; reflexivity|]. injection E as <- _. elim Hi. apply in_or_app. right. now left.
  - destruct (C66_lines (r ++ b')) as (ls0 & H0 & _). pose proof (ln_line l _ _ Hi H0) as H1. rewrite <- !app_assoc in H.
    destruct (C66_lines (l ++ [10] ++ r ++ b')) as (lx & _ & U). apply U in H, H1. rewrite <- H1 in H. subst ls. clear U H1.
    rewrite !count_occ_app, firstn_count_nil by exact Hi. cbn [count_occ plus]. destruct (Z.eq_dec 10 10) as [_|]; [|congruence].
    destruct (IH _ _ H0) as [->|(x & y & E & ->)]; [now left|right; exists x, y; now split].
Qed.

Lemma stripped_cut s1 s2 t t1 : stripped (s1 ++ s2) t -> stripped s1 t1 -> exists u, t = t1 ++ u.
Proof.
  intros (a & b & E & Wa & Wb & F & L) (a1 & b1 & -> & Wa1 & Wb1 & F1 & L1).
  destruct t1 as [|c t1]; [now exists t|]. assert (Hc : ~ white c) by (eapply F1; reflexivity).
  assert (Ht : exists d r, t = d :: r).
  { destruct t as [|d r]; [|eauto]. elim Hc. cbn [app] in E. assert (W : Forall white (a ++ b)) by (apply Forall_app; now split).
    rewrite <- E in W. rewrite <- !app_assoc in W. apply Forall_app in W as [_ W]. now inversion W. }
  destruct Ht as (d & r & ->). assert (Hd : ~ white d) by (eapply F; reflexivity). rewrite <- !app_assoc in E.
  assert (a = a1) as <-.
  { apply app_eq_app in E as (z & [[E1 E2]|[E1 E2]]); destruct z as [|x z]; try (rewrite app_nil_r in E1; congruence).
    - injection E2 as <- _. subst a1. apply Forall_app in Wa1 as [_ W]. inversion W. contradiction.
    - injection E2 as <- _. subst a. apply Forall_app in Wa as [_ W]. inversion W. contradiction. }
  apply app_inv_head in E. apply app_eq_app in E as (z & [[E1 E2]|[E1 E2]]); [|eauto].
  destruct z as [|x z] using rev_ind; [rewrite app_nil_r in E1; exists []; now rewrite app_nil_r|].
  exfalso. rewrite app_assoc in E1. apply (L1 _ _ E1). subst b. apply Forall_app in Wb as [Wb _]. apply Forall_app in Wb as [_ Wb]. now inversion Wb.
Qed.

Lemma same_says l t o : line_text l t -> yields l (Ret (Some o)) -> says parse_lon parse_lat t o.
Proof.
  intros T [(t' & T' & D)|(N & _)]; [|now elim (N t)]. assert (t' = t) as ->.
  { destruct T as (s & V & E & S), T' as (s' & V' & E' & S'). assert (s = s') as <- by (apply utf8_inj; congruence). apply stripped_trim in S, S'. congruence. }
  apply C53_exact. exists o. split; [exact D|]. destruct o; repeat split; apply Permutation_refl.
Qed.
Lemma yields_cut x y o o' : yields (x ++ y) (Ret (Some o)) -> yields x (Ret (Some o')) -> cut_object o o'.
Proof.
  intros Y Y'. assert (exists t, line_text (x ++ y) t) as (t & T) by (destruct Y as [(t & T & _)|(_ & [=])]; eauto).
  assert (exists t, line_text x t) as (t1 & T1) by (destruct Y' as [(t1 & T1 & _)|(_ & [=])]; eauto).
  pose proof (same_says _ _ _ T Y) as S. pose proof (same_says _ _ _ T1 Y') as S'.
  destruct T as (s & V & E & P), T1 as (s1 & V1 & E1 & P1). subst x.
  destruct (Verif.XmlCut.utf8_prefix s1 s y V V1 (eq_sym E)) as (s2 & ->). destruct (stripped_cut _ _ _ _ P P1) as (u & ->).
  eapply C128_line; eassumption.
Qed.

(** A file of objects that has lost its end gives the objects of its whole lines, and perhaps one
    more, whose last part is cut short; or the reader panics. *)
Theorem C128_file : forall b b' ls os, lines (b ++ b') ls -> Forall2 (fun l o => yields l (Ret (Some o))) ls os ->
  let k := count_occ Z.eq_dec b 10 in
  opl_objects parse_lon parse_lat b = Ret (firstn k os)
  \/ (exists o o', nth_error os k = Some o /\ opl_objects parse_lon parse_lat b = Ret (firstn k os ++ [o']) /\ cut_object o o')
  \/ opl_objects parse_lon parse_lat b = Panic.
Proof.
  intros b b' ls os HL HF k. destruct (C66_lines b) as (ls' & HL' & _). destruct (C66_exact C parse_lon parse_lat b ls' HL') as [A B].
  assert (G : forall j, Forall2 (fun l o => yields l (Ret (Some o))) (firstn j ls) (firstn j os)).
  { clear -HF. induction HF; intros [|j]; constructor; auto. }
  destruct (lines_cut _ _ HL' _ _ HL) as [E|(x & y & E & E')]; fold k in E.
  - left. apply A. exists ls', []. rewrite app_nil_r. split; [reflexivity|]. split; [rewrite E; apply G|now left].
  - fold k in E'. assert (exists o, nth_error os k = Some o /\ yields (x ++ y) (Ret (Some o))) as (o & Eo & Y).
    { clearbody k. clear -HF E. revert k E. induction HF as [|l o ls os H _ IH]; intros [|k] E; try discriminate; [injection E as ->; now exists o|exact (IH k E)]. }
    pose proof (yields_next C parse_lon parse_lat x) as Y'. destruct (match utf8_decode x with None => _ | Some _ => _ end) as [[o'|]|].
    + right. left. exists o, o'. split; [exact Eo|]. split; [|eapply yields_cut; eassumption]. apply A. exists ls', []. rewrite app_nil_r. split; [reflexivity|].
      split; [|now left]. rewrite E'. apply Forall2_app; [apply G|]. constructor; [exact Y'|constructor].
    + left. apply A. exists (firstn k ls), [x]. split; [exact E'|]. split; [apply G|]. right. exists x, []. now split.
    + right. right. apply B. exists (firstn k ls), x, []. split; [exact E'|]. split; [|exact Y'].
      specialize (G k). clear -G. induction G; constructor; eauto.
Qed.

(** The last line break does not count. *)
Lemma last_byte c : 0 <= c -> last (utf8_char c) 0 = 10 -> c = 10.
Proof.
  intros H. unfold utf8_char. destruct (c <? 128) eqn:A; [cbn; lia|]. 
  destruct (c <? 2048); [cbn [last]; intros X; lia|]. destruct (c <? 65536); cbn [last]; intros X; lia.
Qed.
Lemma text_break l t : line_text (l ++ [10]) t <-> line_text l t.
Proof.
  assert (T : forall s, stripped s t -> stripped (s ++ [10]) t).
  { intros s (a & b & -> & Wa & Wb & F & L). exists a, (b ++ [10]). rewrite <- !app_assoc. repeat split; auto. apply Forall_app. split; [exact Wb|]. constructor; [|constructor]. now apply is_ws_white. }
  split.
  - intros (s & V & E & S). destruct s as [|c s _] using rev_ind; [destruct l; discriminate|]. apply Forall_app in V as [V Vc].
    rewrite utf8_app in E. assert (Ec : last (l ++ [10]) 0 = last (utf8_char c) 0).
    { rewrite E. change (utf8 [c]) with (utf8_char c ++ []). rewrite app_nil_r. clear. generalize (utf8 s). intros a. pose proof (utf8_char_len c) as H. destruct (utf8_char c) as [|x r] using rev_ind; [cbn in H; lia|]. now rewrite app_assoc, !last_last. }
    rewrite last_last in Ec. symmetry in Ec. apply last_byte in Ec; [|inversion Vc; unfold scalar in *; lia]. subst c. change (utf8 [10]) with [10] in E. apply app_inj_tail in E as [-> _].
    exists s. split; [exact V|]. split; [reflexivity|]. apply stripped_trim in S. rewrite <- S.
    rewrite (stripped_trim (s ++ [10]) (trim s)); [apply trim_stripped|]. clear S T. pose proof (trim_stripped s) as (a & b & E & Wa & Wb & F & L). exists a, (b ++ [10]). rewrite E at 1. rewrite <- !app_assoc. repeat split; auto. apply Forall_app. split; [exact Wb|]. constructor; [|constructor]. now apply is_ws_white.
  - intros (s & V & -> & S). exists (s ++ [10]). rewrite utf8_app. split; [apply Forall_app; split; [exact V|constructor; [|constructor]]|auto]. unfold scalar; lia.
Qed.
Lemma yields_break l r : yields l r <-> yields (l ++ [10]) r.
Proof.
  unfold line_yields. split; (intros [(t & T & D)|(N & E)]; [left; exists t; split; [now apply text_break|exact D]|right; split; [intros t T; apply (N t); now apply text_break|exact E]]).
Qed.
Lemma lines_break b ls : lines b ls -> b <> [] -> last b 0 <> 10 -> exists ls0 l, ls = ls0 ++ [l] /\ lines (b ++ [10]) (ls0 ++ [l ++ [10]]).
Proof.
  induction 1 as [|l Hn Hi|l r ls Hi HL IH]; intros N L; [congruence| |].
  - exists [], l. split; [reflexivity|]. cbn [app]. rewrite <- (app_nil_r (l ++ [10])), <- app_assoc. apply (ln_line l [] []); [exact Hi|constructor].
  - destruct r as [|x r] using rev_ind; [cbn [app] in L; now rewrite last_last in L|]. clear IHr. destruct IH as (ls0 & l0 & -> & H0).
    + now destruct r.
    + rewrite !app_assoc, last_last in L. now rewrite last_last.
    + exists ((l ++ [10]) :: ls0), l0. split; [reflexivity|]. rewrite <- !app_assoc in *. apply (ln_line l _ _ Hi). exact H0.
Qed.
Theorem C128_last_break : forall b, b <> [] -> last b 0 <> 10 ->
  opl_objects parse_lon parse_lat (b ++ [10]) = opl_objects parse_lon parse_lat b.
Proof.
  intros b N L. destruct (C66_lines b) as (ls & HL & _). destruct (lines_break b ls HL N L) as (ls0 & l & -> & HL').
  destruct (C66_exact C parse_lon parse_lat _ _ HL) as [A B]. destruct (C66_exact C parse_lon parse_lat _ _ HL') as [A' B'].
  assert (S : forall P, (forall l, P l <-> P (l ++ [10])) -> True) by auto. clear S.
  destruct (opl_objects parse_lon parse_lat b) as [os|] eqn:E.
  - apply A'. destruct (proj1 (A os) eq_refl) as (g & rest & EL & G & R). destruct rest as [|x rest _] using rev_ind.
    + rewrite app_nil_r in EL. subst g. exists (ls0 ++ [l ++ [10]]), []. rewrite app_nil_r. split; [reflexivity|]. split; [|now left].
      apply Forall2_app_inv_l in G as (o1 & o2 & G1 & G2 & ->). apply Forall2_app; [exact G1|]. inversion G2 as [|? ? ? ? Y G3]; subst. constructor; [now apply yields_break in Y|exact G3].
    + rewrite app_assoc in EL. apply app_inj_tail in EL as [-> ->]. exists g, (rest ++ [x ++ [10]]). rewrite app_assoc. split; [reflexivity|]. split; [exact G|]. right.
      destruct R as [R|(l1 & r1 & R & Y)]; [now destruct rest|]. destruct rest as [|y rest]; injection R as -> E1.
      * exists (l1 ++ [10]), []. split; [reflexivity|]. now apply yields_break in Y.
      * exists l1, (rest ++ [x ++ [10]]). now split.
  - apply B'. destruct (proj1 B eq_refl) as (g & y & rest & EL & G & Y). destruct rest as [|x rest _] using rev_ind.
    + apply app_inj_tail in EL as [-> ->]. exists g, (y ++ [10]), []. split; [reflexivity|]. split; [exact G|]. now apply yields_break in Y.
    + rewrite app_comm_cons, app_assoc in EL. apply app_inj_tail in EL as [-> ->]. exists g, y, (rest ++ [x ++ [10]]). rewrite <- app_assoc. now split.
Qed.
End Cut.

(** "Every object that is read from a file without its end was in the file" is false: the last
    way may have lost nodes, and its last node id may be another one. *)
Definition whole_file : bytes := utf8 (lit "w17 v2 dV c5 t i9 ujo Tname=a Nn4,n56,n7").
Theorem C128_complete_refuted : ~ forall b b' os os',
  opl_objects parse_i64 parse_i64 (b ++ b') = Ret os -> opl_objects parse_i64 parse_i64 b = Ret os' -> incl os' os.
Proof.
  intros H. specialize (H (firstn 36 whole_file) (skipn 36 whole_file)).
  rewrite firstn_skipn in H. assert (E : exists m t, opl_objects parse_i64 parse_i64 whole_file = Ret [OWay m t [4; 56; 7]]
    /\ opl_objects parse_i64 parse_i64 (firstn 36 whole_file) = Ret [OWay m t [4; 5]]) by (eexists; eexists; split; vm_compute; reflexivity).
  destruct E as (m & t & E1 & E2). destruct (H _ _ E1 E2 _ (or_introl eq_refl)) as [X|[]]. discriminate X.
Qed.

(** Two lines, cut within the second: in the last node id, before the nodes, and within the tags. *)
Definition two_lines : str := lit "r1 v1 dV c2 t i3 u Ta=b Mn1@x,n2@yz" ++ [10] ++ lit "w17 v2 dV c5 t i9 ujo Tname=a Nn4,n56,n7".
Example C128_ex : exists ls os, lines (utf8 two_lines) ls /\ Forall2 (fun l o => line_yields Z parse_i64 parse_i64 l (Ret (Some o))) ls os
  /\ map (fun n => match opl_objects parse_i64 parse_i64 (firstn n (utf8 two_lines)) with Ret os => Some (length os) | Panic => None end)
       [20; 29; 35; 36; 47; 67; 69; 70; 72; 73; 74; 76]%nat = [None; Some 1; Some 1; Some 1; None; Some 1; Some 2; Some 1; Some 2; Some 2; Some 1; Some 2]%nat.
Proof.
  destruct (C66_lines (utf8 two_lines)) as (ls & HL & U). exists ls.
  assert (E : exists os, opl_objects parse_i64 parse_i64 (utf8 two_lines) = Ret os /\ length os = 2%nat) by (eexists; split; vm_compute; reflexivity).
  destruct E as (os & E & Ho). exists os. split; [exact HL|]. split; [|vm_compute; reflexivity].
  destruct (proj1 (proj1 (C66_exact Z parse_i64 parse_i64 _ _ HL) os) E) as (g & rest & EL & G & R).
  assert (Hl : length ls = 2%nat).
  { assert (lines (utf8 two_lines) [utf8 (lit "r1 v1 dV c2 t i3 u Ta=b Mn1@x,n2@yz" ++ [10]); utf8 (lit "w17 v2 dV c5 t i9 ujo Tname=a Nn4,n56,n7")]) as X; [|now rewrite <- (U _ X)].
    apply (ln_line (utf8 (lit "r1 v1 dV c2 t i3 u Ta=b Mn1@x,n2@yz")) (utf8 (lit "w17 v2 dV c5 t i9 ujo Tname=a Nn4,n56,n7"))); [|apply ln_last; [discriminate|]]; vm_compute; intuition discriminate. }
  destruct rest as [|x rest]; [rewrite app_nil_r in EL; now subst g|]. exfalso. pose proof (PropsExact3.Forall2_len _ _ _ G) as X. rewrite EL, app_length in Hl. cbn in Hl. lia.
Qed.
Print Assumptions C128_line.
Print Assumptions C128_file.
Print Assumptions C128_last_break.
Print Assumptions C128_complete_refuted.
