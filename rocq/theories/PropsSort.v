(** C116: comparing timestamps of both kinds with each other. *)
From Coq Require Import String ZArith List Bool Lia Permutation Sorted.
From Coq Require Import ZifyBool ZifyNat.
From Verif Require Import Base Ints Timestamp SpecCal TimestampFacts PropsTime.
Import ListNotations.
Open Scope Z_scope.

(** [a <= b] of Rust, by [partial_cmp]. *)
Definition at_most (a b : timestamp) : Prop := timestamp_cmp a b <> Gt.

(** The order of texts: a text is before its continuations, and otherwise the first
    difference decides. *)
Definition before (a b : str) : Prop :=
  (exists c r, b = a ++ c :: r) \/ (exists p x y a' b', a = p ++ x :: a' /\ b = p ++ y :: b' /\ x < y).

Lemma before_iff : forall a b, str_cmp a b = Lt <-> before a b.
Proof.
  induction a as [|x a IH]; intros [|y b]; cbn [str_cmp].
  - split; [discriminate|]. intros [(c & r & E)|(p & x & y & a' & b' & E & _)]; [discriminate|destruct p; discriminate].
  - split; [|reflexivity]. intros _. left. now exists y, b.
  - split; [discriminate|]. intros [(c & r & E)|(p & x' & y & a' & b' & _ & E & _)]; [discriminate|destruct p; discriminate].
  - destruct (Z.compare_spec x y) as [->|H|H].
    + rewrite IH. split.
      * intros [(c & r & ->)|(p & u & v & a' & b' & -> & -> & L)]; [left; now exists c, r|right]. now exists (y :: p), u, v, a', b'.
      * intros [(c & r & E)|(p & u & v & a' & b' & E1 & E2 & L)]; [left; injection E as ->; now exists c, r|].
        destruct p as [|q p]; cbn [app] in *; injection E1 as E1 E1'; injection E2 as E2 E2'; [lia|]. right. now exists p, u, v, a', b'.
    + split; [|reflexivity]. intros _. right. now exists [], x, y, a, b.
    + split; [discriminate|]. intros [(c & r & E)|(p & u & v & a' & b' & E1 & E2 & L)]; [injection E as E _; lia|].
      destruct p as [|q p]; cbn [app] in *; injection E1 as E1 E1'; injection E2 as E2 E2'; lia.
Qed.

Lemma str_cmp_antisym : forall a b, str_cmp b a = CompOpp (str_cmp a b).
Proof.
  induction a as [|x a IH]; intros [|y b]; try reflexivity. cbn [str_cmp]. rewrite (Z.compare_antisym x y).
  destruct (x ?= y); cbn [CompOpp]; [apply IH|reflexivity|reflexivity].
Qed.
Lemma str_le_trans : forall a b c, str_cmp a b <> Gt -> str_cmp b c <> Gt -> str_cmp a c <> Gt.
Proof.
  induction a as [|x a IH]; intros [|y b] [|z c] H1 H2; cbn [str_cmp] in *; try easy.
  destruct (Z.compare_spec x y) as [->|Hxy|Hxy]; [| |easy].
  - destruct (y ?= z) eqn:E; [eauto|discriminate|easy].
  - destruct (Z.compare_spec y z) as [->|Hyz|Hyz]; [| |easy].
    + now rewrite (proj2 (Z.compare_lt_iff x z) Hxy).
    + rewrite (proj2 (Z.compare_lt_iff x z)) by lia. discriminate.
Qed.

(** Any two timestamps can be compared, with opposite answers from both sides. *)
Theorem C116_total : forall a b, timestamp_cmp b a = CompOpp (timestamp_cmp a b) /\ (at_most a b \/ at_most b a) /\ at_most a a.
Proof.
  assert (A : forall a b, timestamp_cmp b a = CompOpp (timestamp_cmp a b)).
  { intros [x|t] [y|u]; cbn [timestamp_cmp]; [apply str_cmp_antisym| | |]; apply Z.compare_antisym. }
  intros a b. split; [apply A|]. unfold at_most. split.
  - rewrite (A a b). destruct (timestamp_cmp a b); [left|left|right]; discriminate.
  - intros E. pose proof (A a a) as Q. rewrite E in Q. discriminate.
Qed.
Print Assumptions C116_total.

(** Comparison is transitive on some timestamps exactly if no number among them is
    between the instants of two texts among them that the texts' own order has the other
    way round, or is the instant of two different texts. *)
Theorem C116_exact : forall l,
  (forall a b c, In a l -> In b l -> In c l -> at_most a b -> at_most b c -> at_most a c) <->
  ~ exists s1 s2 e, In (ISOString s1) l /\ In (ISOString s2) l /\ In (EpochNumber e) l /\
      before s1 s2 /\ to_epoch_number (ISOString s2) <= e <= to_epoch_number (ISOString s1).
Proof.
  unfold at_most. intros l. split.
  - intros T (s1 & s2 & e & I1 & I2 & Ie & L & H1 & H2). apply before_iff in L.
    apply (T _ _ _ I2 Ie I1); cbn [timestamp_cmp to_epoch_number] in *; [now rewrite Z.compare_le_iff|now rewrite Z.compare_le_iff|].
    rewrite str_cmp_antisym, L. reflexivity.
  - intros N a b c Ia Ib Ic H1 H2.
    assert (K : forall s1 s2 e, In (ISOString s1) l -> In (ISOString s2) l -> In (EpochNumber e) l ->
      str_cmp s1 s2 <> Gt -> iso_to_epoch s2 <= e <= iso_to_epoch s1 -> s1 = s2).
    { intros s1 s2 e I1 I2 Ie L B. destruct (str_cmp s1 s2) eqn:E; [now apply str_cmp_eq_iff| |easy]. elim N. apply before_iff in E. now exists s1, s2, e. }
    destruct a as [x|t], b as [y|u], c as [z|v]; cbn [timestamp_cmp to_epoch_number] in *.
    + eapply str_le_trans; eassumption.
    + rewrite Z.compare_le_iff in *. destruct (Z.le_gt_cases (iso_to_epoch x) v) as [|G]; [assumption|].
      rewrite (K x y v Ia Ib Ic H1) by lia. assumption.
    + rewrite Z.compare_le_iff in *. intros E.
      assert (L : str_cmp z x <> Gt) by (rewrite str_cmp_antisym, E; discriminate).
      rewrite (K z x u Ic Ia Ib L) in E by lia. rewrite (proj2 (str_cmp_eq_iff x x) eq_refl) in E. discriminate.
    + rewrite Z.compare_le_iff in *. lia.
    + rewrite Z.compare_le_iff in *. destruct (Z.le_gt_cases t (iso_to_epoch z)) as [|G]; [assumption|].
      rewrite <- (K y z t Ib Ic Ia H2) by lia. assumption.
    + rewrite Z.compare_le_iff in *. lia.
    + rewrite Z.compare_le_iff in *. lia.
    + rewrite Z.compare_le_iff in *. lia.
Qed.
Print Assumptions C116_exact.

(** Timestamps of that kind can be put in order. *)
Fixpoint insert (a : timestamp) (l : list timestamp) : list timestamp :=
  match l with
  | [] => [a]
  | b :: r => match timestamp_cmp a b with Gt => b :: insert a r | _ => a :: b :: r end
  end.
Lemma insert_perm a l : Permutation (a :: l) (insert a l).
Proof.
  induction l as [|b l IH]; [reflexivity|]. cbn [insert]. destruct (timestamp_cmp a b); try reflexivity.
  rewrite perm_swap. now constructor.
Qed.

Theorem C116_sortable : forall l,
  (forall a b c, In a l -> In b l -> In c l -> at_most a b -> at_most b c -> at_most a c) ->
  exists l', Permutation l l' /\ StronglySorted at_most l'.
Proof.
  induction l as [|a l IH]; intros T; [exists []; split; constructor|].
  destruct IH as (l' & P & S); [intros x y z Ix Iy Iz; apply T; now right|].
  exists (insert a l'). split; [rewrite <- insert_perm; now constructor|].
  assert (T' : forall x y z, In x (a :: l') -> In y (a :: l') -> In z (a :: l') -> at_most x y -> at_most y z -> at_most x z).
  { assert (P' : Permutation (a :: l') (a :: l)) by (constructor; now symmetry).
    intros x y z Ix Iy Iz. apply T; eapply Permutation_in; eassumption. }
  clear - S T'. induction S as [|b r S IH F]; [repeat constructor|]. cbn [insert].
  assert (E : Forall (at_most b) (insert a r) \/ at_most a b).
  { destruct (proj1 (proj2 (C116_total a b))) as [H|H]; [now right|left]. rewrite <- insert_perm. now constructor. }
  assert (Q : at_most a b -> StronglySorted at_most (a :: b :: r)).
  { intros H. constructor; [now constructor|]. constructor; [exact H|]. rewrite Forall_forall in *. intros x Ix.
    apply (T' a b x); [now left|right; now left|right; now right|exact H|now apply F]. }
  destruct (timestamp_cmp a b) eqn:C.
  - apply Q. unfold at_most. rewrite C. discriminate.
  - apply Q. unfold at_most. rewrite C. discriminate.
  - constructor.
    + apply IH. intros x y z Ix Iy Iz. apply T'; cbn [In] in *; tauto.
    + destruct E as [E|E]; [exact E|]. now elim E.
Qed.
Print Assumptions C116_sortable.

(** Timestamps between 1970 and 2106 in the canonical form are of that kind, mixed or
    not, and so are any timestamps of one kind. *)
Theorem C116_usual :
  (forall l, Forall (fun a => exists t, Denotes a t) l ->
     forall a b c, In a l -> In b l -> In c l -> at_most a b -> at_most b c -> at_most a c)
  /\ (forall a b c, (forall x, In x [a; b; c] -> exists s, x = ISOString s) \/ (forall x, In x [a; b; c] -> exists t, x = EpochNumber t) ->
       at_most a b -> at_most b c -> at_most a c).
Proof.
  split.
  - intros l F a b c Ia Ib Ic. rewrite Forall_forall in F. destruct (F a Ia) as (ta & Ha), (F b Ib) as (tb & Hb), (F c Ic) as (tc & Hc).
    unfold at_most. rewrite (C11_order_chronological a b ta tb), (C11_order_chronological b c tb tc), (C11_order_chronological a c ta tc) by assumption.
    rewrite !Z.compare_le_iff. lia.
  - intros a b c [F|F]; destruct (F a) as (x & ->); [now left| |now left|]; destruct (F b) as (y & ->); [right; now left| |right; now left|];
      destruct (F c) as (z & ->); [right; right; now left| |right; right; now left|]; unfold at_most; cbn [timestamp_cmp].
    + apply str_le_trans.
    + rewrite !Z.compare_le_iff. lia.
Qed.
Print Assumptions C116_usual.

(** Three timestamps, all of valid dates, that go round in a circle: they cannot be put
    in any order. *)
Theorem C116_cycle_refuted : exists s1 s2 t1 t2 e, RFC3339 s1 t1 /\ RFC3339 s2 t2 /\ t1 < e < t2 /\
  let a := ISOString s1 in let b := EpochNumber e in let c := ISOString s2 in
  timestamp_cmp a b = Lt /\ timestamp_cmp b c = Lt /\ timestamp_cmp c a = Lt /\
  forall l, Permutation [a; b; c] l -> ~ StronglySorted at_most l.
Proof.
  exists (lit "2020-01-01T05:00:00+05:00"), (lit "2020-01-01T01:00:00Z"), 1577836800, 1577840400, 1577838600.
  split; [apply parse_rfc3339_spec; vm_compute; reflexivity|]. split; [apply parse_rfc3339_spec; vm_compute; reflexivity|].
  split; [lia|]. cbv zeta. set (a := ISOString _). set (b := EpochNumber _). set (c := ISOString _).
  assert (Lab : timestamp_cmp a b = Lt) by (vm_compute; reflexivity).
  assert (Lbc : timestamp_cmp b c = Lt) by (vm_compute; reflexivity).
  assert (Lca : timestamp_cmp c a = Lt) by (vm_compute; reflexivity).
  split; [exact Lab|]. split; [exact Lbc|]. split; [exact Lca|]. intros l P S.
  assert (N : ~ at_most b a /\ ~ at_most c b /\ ~ at_most a c).
  { unfold at_most. rewrite (proj1 (C116_total a b)), (proj1 (C116_total b c)), (proj1 (C116_total c a)), Lab, Lbc, Lca. now repeat split. }
  clearbody a b c. destruct N as (Nba & Ncb & Nac).
  destruct l as [|x l]; [now apply Permutation_sym, Permutation_nil in P|].
  inversion S as [|? ? _ F]; subst. rewrite Forall_forall in F.
  assert (K : forall y, In y [a; b; c] -> y = x \/ at_most x y).
  { intros y Iy. apply (Permutation_in _ P) in Iy. destruct Iy as [->|Iy]; [now left|right; now apply F]. }
  assert (D : a <> b /\ b <> c /\ c <> a).
  { split; [|split]; intros ->; [apply Nba|apply Ncb|apply Nac]; apply (C116_total _ (EpochNumber 0)). }
  assert (Ix : In x [a; b; c]) by (apply (Permutation_in _ (Permutation_sym P)); now left).
  destruct D as (D1 & D2 & D3).
  destruct Ix as [<-|[<-|[<-|[]]]].
  - destruct (K c) as [Q|Q]; [right; right; now left|congruence|easy].
  - destruct (K a) as [Q|Q]; [now left|congruence|easy].
  - destruct (K b) as [Q|Q]; [right; now left|congruence|easy].
Qed.
Print Assumptions C116_cycle_refuted.

Example C116_ex : let l := [EpochNumber 1262304000; ISOString (lit "2009-12-31T23:59:59Z")] in
  StronglySorted at_most (rev l) /\ ~ StronglySorted at_most l.
Proof.
  cbv zeta. split.
  - repeat constructor. vm_compute. discriminate.
  - intros S. inversion S as [|? ? _ F]; subst. inversion F as [|? ? H _]; subst. apply H. vm_compute. reflexivity.
Qed.
