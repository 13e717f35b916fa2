(** Facts for PropsAccept: when decoding a message succeeds. *)
From Coq Require Import String ZArith List Bool Lia.
From Verif Require Import Base Utf8 Timestamp Obj PbWire PbMsg PbMsgFacts PbfRead SpecPbf SpecPbfRead SpecPbfAccept PbfFacts PbfSound.
Import ListNotations.
Open Scope Z_scope.

Definition succ {A} (x : outcome A) : Prop := exists a, x = Ret a.

Lemma succ_bind {A B} (e : outcome A) (f : A -> outcome B) : succ (obind e f) <-> exists a, e = Ret a /\ succ (f a).
Proof.
  split.
  - intros (b & H). destruct e as [a|]; [|discriminate]. exists a. split; [reflexivity|]. now exists b.
  - intros (a & -> & b & H). now exists b.
Qed.
Lemma succ_ret {A} (a : A) : succ (Ret a) <-> True.
Proof. split; [easy|]. intros _. now exists a. Qed.
Lemma succ_omapM {A B} (f : A -> outcome B) l : succ (omapM f l) <-> Forall (fun a => succ (f a)) l.
Proof.
  induction l as [|a l IH]; cbn [omapM].
  - split; [constructor|]. intros _. now exists [].
  - rewrite succ_bind. split.
    + intros (b & E & H). apply succ_bind in H as (bs & E2 & _). constructor; [now exists b|]. apply IH. now exists bs.
    + intros H. inversion H as [|? ? (b & E) H2]; subst. exists b. split; [exact E|]. apply succ_bind.
      apply IH in H2 as (bs & E2). exists bs. split; [exact E2|]. now apply succ_ret.
Qed.

Lemma arith64_iff chk z y : arith_i64 chk z = Ret y <-> fits64 chk z /\ y = as_i64 z.
Proof.
  unfold arith_i64, fits64. destruct (in_i64b z) eqn:E.
  - apply in_i64b_iff in E. rewrite (as_i64_id _ E). split; [intros H; injection H as <-; easy|intros (_ & ->); easy].
  - assert (N : ~ in_i64 z) by (intros C; apply in_i64b_iff in C; congruence). destruct chk; split; try easy.
    + intros (C & _). elim N. now apply C.
    + intros H. injection H as <-. easy.
    + intros (_ & ->). easy.
Qed.
Lemma arith32_iff chk z y : arith_i32 chk z = Ret y <-> fits32 chk z /\ y = as_i32 z.
Proof.
  unfold arith_i32, fits32. destruct (in_i32b z) eqn:E.
  - apply in_i32b_iff in E. rewrite (as_i32_id _ E). split; [intros H; injection H as <-; easy|intros (_ & ->); easy].
  - assert (N : ~ in_i32 z) by (intros C; apply in_i32b_iff in C; congruence). destruct chk; split; try easy.
    + intros (C & _). elim N. now apply C.
    + intros H. injection H as <-. easy.
    + intros (_ & ->). easy.
Qed.

Lemma as32_iff chk x y : as32 chk x y <-> fits32 chk x /\ y = as_i32 x.
Proof.
  unfold as32, fits32. destruct (as_i32_cong x) as (k & E). pose proof (as_i32_range x) as R. split.
  - intros (I & (k' & E') & C). split.
    + intros H. now rewrite <- (C H).
    + eapply i32_unique with (k := k' - k); [exact R|exact I|]. lia.
  - intros (C & ->). split; [exact R|]. split; [now exists k|]. intros H. apply as_i32_id. now apply C.
Qed.
Lemma as32_false_iff x y : as32 false x y <-> y = as_i32 x.
Proof. rewrite as32_iff. unfold fits32. split; [easy|]. intros ->. easy. Qed.

Lemma wrapped64_fits chk x lx d : wrapped64 chk x lx -> (fits64 chk (d + lx) <-> fits64 chk (x + d)).
Proof.
  intros (H1 & H2). unfold fits64. split; intros H C; specialize (H C); rewrite (H2 C) in *; now rewrite Z.add_comm.
Qed.
Lemma wrapped32_fits chk x lx d : wrapped32 chk x lx -> (fits32 chk (d + lx) <-> fits32 chk (x + d)).
Proof.
  intros (H1 & H2). unfold fits32. split; intros H C; specialize (H C); rewrite (H2 C) in *; now rewrite Z.add_comm.
Qed.

(** ** Positions *)

Lemma dense_raw_iff chk col i last x : Forall in_i64 col -> in_i32 last -> last = total (firstn i col) ->
  dense_raw chk col i last = Ret x <-> (i < length col)%nat /\ in_i32 (sum_to i col) /\ x = sum_to i col.
Proof.
  intros Hc Hl El. split.
  - intros H. pose proof (dense_raw_inv _ _ _ _ _ Hc Hl El H) as (-> & I). split; [|easy].
    unfold dense_raw in H. destruct (at_ col i) as [d|] eqn:E; [|discriminate]. apply at_inv in E.
    apply nth_error_Some. congruence.
  - intros (L & I & ->). apply nth_error_Some in L. destruct (nth_error col i) as [d|] eqn:E; [|easy].
    unfold dense_raw. rewrite (proj2 (at_inv _ _ _) E). cbn [obind]. unfold sum_to in *. rewrite (total_snoc _ _ _ E) in *.
    rewrite arith_i64_ok by (unfold in_i64, in_i32 in *; lia). cbn [obind]. unfold try_i32.
    rewrite El, Z.add_comm. apply in_i32b_iff in I. now rewrite I.
Qed.

Lemma dense_internal_succ chk gran off raw : in_i32 raw ->
  succ (dense_internal chk gran off raw) <-> pos_accepted chk gran off raw.
Proof.
  intros Hr. unfold dense_internal. cbv zeta. unfold COORD_PRECISION_NANOS, pos_accepted. rewrite succ_bind, (Z.mul_comm (Z.quot gran 100)). split.
  - intros (x & E & y & E2). apply arith32_iff in E as (F & ->). apply arith32_iff in E2 as (F2 & _).
    split; [exact Hr|]. split; [exact F|]. eexists. split; [now apply as32_false_iff|].
    intros C. specialize (F2 C). specialize (F C). now rewrite (as_i32_id _ F) in F2.
  - intros (_ & F & o & Eo & F2). apply as32_false_iff in Eo as ->. eexists. split; [apply arith32_iff; split; [exact F|reflexivity]|].
    eexists. apply arith32_iff. split; [|reflexivity]. intros C. rewrite (as_i32_id _ (F C)). now apply F2.
Qed.

(** ** The state before the i-th node *)

Record dense_pre (chk : profile) (dg : Z) (d : dense_nodes) (di : dense_info) (i : nat) (s : dense_state) : Prop := {
  dp_inv : dense_inv chk dg d di i s;
  dp_time : chk = true -> last_timestamp s = compounded dg (firstn i (map as_i32 (di_timestamp di)))
}.

Definition place_ok (chk : profile) (gran lato lono : Z) (d : dense_nodes) (i : nat) : Prop :=
  (i < length (dn_lat d))%nat /\ (i < length (dn_lon d))%nat /\ fits64 chk (sum_to i (dn_id d)) /\
  pos_accepted chk gran lato (sum_to i (dn_lat d)) /\ pos_accepted chk gran lono (sum_to i (dn_lon d)).

(** The metadata of node i. *)
Definition meta_ok (chk : profile) (dg : Z) (user : Z -> outcome str) (di : dense_info) (i : nat) : Prop :=
  (i < length (di_version di))%nat /\ (i < length (di_timestamp di))%nat /\ (i < length (di_changeset di))%nat /\
  (i < length (di_uid di))%nat /\ (i < length (di_user_sid di))%nat /\
  (chk = true -> forall t, nth_error (map as_i32 (di_timestamp di)) i = Some t ->
     let last := compounded dg (firstn i (map as_i32 (di_timestamp di))) in
     in_i32 (last + t) /\ in_i32 ((last + t) * dg)) /\
  fits64 chk (sum_to i (di_changeset di)) /\
  (exists u, as32 chk (sum_to i (di_uid di)) u /\ u <> 2^31 - 1) /\
  (exists sid, as32 chk (sum_to i (di_user_sid di)) sid /\ succ (user sid)).

Lemma nth_Some_lt {A} (l : list A) i x : nth_error l i = Some x -> (i < length l)%nat.
Proof. intros H. apply nth_error_Some. congruence. Qed.
Lemma lt_nth {A} (l : list A) i : (i < length l)%nat -> exists x, nth_error l i = Some x.
Proof. intros H. apply nth_error_Some in H. destruct (nth_error l i) as [x|]; [now exists x|easy]. Qed.

Lemma sum_to_next l i x : nth_error l i = Some x -> total (firstn i l) + x = sum_to i l.
Proof. intros H. unfold sum_to. now rewrite (total_snoc _ _ _ H). Qed.

Lemma dense_meta_succ chk dg user d di i s id : dense_pre chk dg d di i s ->
  succ (dense_meta chk dg user di i s id) <-> meta_ok chk dg user di i.
Proof.
  intros [[V1 V2 V3 V4 V5 V6 V7] Vt]. split.
  - intros ((m & [[[ts cs] uid] sid]) & H). unfold dense_meta in H. binds H. injection H as <- -> -> -> ->.
    repeat match goal with E : at_ _ i = Ret _ |- _ => apply at_inv in E end.
    match goal with E : nth_error (di_changeset di) i = Some ?x |- _ => rename E into Nc; rename x into c end.
    match goal with E : nth_error (di_uid di) i = Some ?x |- _ => rename E into Nu; rename x into u end.
    match goal with E : nth_error (di_user_sid di) i = Some ?x |- _ => rename E into Ns; rename x into us end.
    match goal with E : nth_error (di_timestamp di) i = Some ?x |- _ => rename E into Nt; rename x into t end.
    match goal with E : nth_error (di_version di) i = Some ?x |- _ => rename E into Nv; rename x into v end.
    match goal with E : arith_i64 chk (_ + last_changeset s) = _ |- _ => apply arith64_iff in E as (Fc & Ec) end.
    match goal with E : arith_i32 chk (_ + last_uid s) = _ |- _ => apply arith32_iff in E as (Fu & Eu) end.
    match goal with E : arith_i32 chk (_ + last_user_sid s) = _ |- _ => apply arith32_iff in E as (Fs & Es) end.
    match goal with E : arith_i32 chk (_ + last_timestamp s) = _ |- _ => apply arith32_iff in E as (Ft & Et) end.
    match goal with E : arith_i32 chk (_ * dg) = _ |- _ => apply arith32_iff in E as (Ft2 & Et2) end.
    match goal with E : assert _ = Ret _ |- _ => rename E into Ea end.
    match goal with E : user sid = Ret ?n |- _ => rename E into En end.
    apply (wrapped64_fits _ _ _ _ V5) in Fc. rewrite (sum_to_next _ _ _ Nc) in Fc.
    pose proof (proj1 (wrapped32_fits _ _ _ _ V6) Fu) as Fu'. rewrite (sum_to_next _ _ _ Nu) in Fu'.
    pose proof (proj1 (wrapped32_fits _ _ _ _ V7) Fs) as Fs'. rewrite (sum_to_next _ _ _ Ns) in Fs'.
    split; [exact (nth_Some_lt _ _ _ Nv)|]. split; [exact (nth_Some_lt _ _ _ Nt)|]. split; [exact (nth_Some_lt _ _ _ Nc)|].
    split; [exact (nth_Some_lt _ _ _ Nu)|]. split; [exact (nth_Some_lt _ _ _ Ns)|]. split; [|split; [exact Fc|split]].
    + intros C t' Ht'. cbv zeta. rewrite (map_nth_error _ _ _ Nt) in Ht'. injection Ht' as <-. specialize (Ft C). rewrite (Vt C) in Ft.
      rewrite Z.add_comm in Ft. split; [exact Ft|]. specialize (Ft2 C). rewrite Et, (Vt C) in Ft2.
      rewrite (Z.add_comm (as_i32 t)), (as_i32_id _ Ft) in Ft2. exact Ft2.
    + exists uid. split.
      * apply as32_iff. split; [exact Fu'|]. rewrite Eu, <- (sum_to_next _ _ _ Nu). destruct V6 as (-> & _). apply as_i32_add.
      * unfold assert in Ea. destruct (uid <? 2^31 - 1) eqn:X; [lia|discriminate].
    + exists sid. split; [|now eexists; exact En]. apply as32_iff. split; [exact Fs'|].
      rewrite Es, <- (sum_to_next _ _ _ Ns). destruct V7 as (-> & _). apply as_i32_add.
  - intros (Lv & Lt & Lc & Lu & Ls & Ht & Fc & (u' & Eu & Nu') & (sid & Es & name & En)).
    destruct (lt_nth _ _ Lv) as (v & Nv). destruct (lt_nth _ _ Lt) as (t & Nt). destruct (lt_nth _ _ Lc) as (c & Nc).
    destruct (lt_nth _ _ Lu) as (u & Nu). destruct (lt_nth _ _ Ls) as (us & Ns).
    unfold dense_meta. rewrite (proj2 (at_inv _ _ _) Nc). cbn [obind].
    rewrite (proj2 (arith64_iff chk (c + last_changeset s) (as_i64 (c + last_changeset s)))).
    2: { split; [|reflexivity]. apply (wrapped64_fits _ _ _ _ V5). now rewrite (sum_to_next _ _ _ Nc). }
    cbn [obind]. rewrite (proj2 (at_inv _ _ _) Nu). cbn [obind].
    apply as32_iff in Eu as (Fu & Eu). apply as32_iff in Es as (Fs & Es).
    rewrite (proj2 (arith32_iff chk (u + last_uid s) u')).
    2: { split; [apply (wrapped32_fits _ _ _ _ V6); now rewrite (sum_to_next _ _ _ Nu)|].
         rewrite Eu, <- (sum_to_next _ _ _ Nu). destruct V6 as (-> & _). symmetry. apply as_i32_add. }
    cbn [obind]. rewrite (proj2 (at_inv _ _ _) Ns). cbn [obind].
    rewrite (proj2 (arith32_iff chk (us + last_user_sid s) sid)).
    2: { split; [apply (wrapped32_fits _ _ _ _ V7); now rewrite (sum_to_next _ _ _ Ns)|].
         rewrite Es, <- (sum_to_next _ _ _ Ns). destruct V7 as (-> & _). symmetry. apply as_i32_add. }
    cbn [obind]. rewrite (proj2 (at_inv _ _ _) Nt). cbn [obind].
    assert (Ht' : chk = true -> in_i32 (as_i32 t + last_timestamp s) /\ in_i32 ((as_i32 t + last_timestamp s) * dg)).
    { intros C. rewrite (Vt C), (Z.add_comm (as_i32 t)). apply (Ht C). now apply map_nth_error. }
    rewrite (proj2 (arith32_iff chk (as_i32 t + last_timestamp s) (as_i32 (as_i32 t + last_timestamp s)))).
    2: { split; [|reflexivity]. intros C. now apply Ht'. }
    cbn [obind].
    rewrite (proj2 (arith32_iff chk _ (as_i32 (as_i32 (as_i32 t + last_timestamp s) * dg)))).
    2: { split; [|reflexivity]. intros C. destruct (Ht' C) as (X & Y). now rewrite (as_i32_id _ X). }
    cbn [obind]. replace (assert (u' <? 2^31 - 1)) with (Ret tt).
    2: { unfold assert. assert (in_i32 u') by (rewrite Eu; apply as_i32_range). unfold in_i32 in *.
         destruct (u' <? 2^31 - 1) eqn:X; [reflexivity|lia]. }
    cbn [obind]. rewrite En. cbn [obind]. rewrite (proj2 (at_inv _ _ _) Nv). cbn [obind]. now eexists.
Qed.

Lemma dense_pre0 chk dg d di kv : dense_pre chk dg d di 0 (ds0 kv).
Proof. split; [apply dense_inv0|]. intros _. reflexivity. Qed.

(** What the metadata leaves as time in a checked build. *)
Lemma dense_meta_time chk dg user d di i s id m ts cs uid sid : dense_pre chk dg d di i s ->
  dense_meta chk dg user di i s id = Ret (m, (ts, cs, uid, sid)) ->
  chk = true -> ts = compounded dg (firstn (S i) (map as_i32 (di_timestamp di))).
Proof.
  intros [[V1 V2 V3 V4 V5 V6 V7] Vt] H C. unfold dense_meta in H. binds H. injection H as <- -> -> -> ->.
  match goal with E : at_ (di_timestamp di) i = Ret ?x |- _ => apply at_inv in E; rename E into Nt; rename x into t end.
  match goal with E : arith_i32 chk (_ + last_timestamp s) = _ |- _ => apply arith32_cases in E as (_ & Et) end.
  match goal with E : arith_i32 chk (_ * dg) = _ |- _ => apply arith32_cases in E as (_ & Et2) end.
  rewrite (firstn_snoc _ _ _ (map_nth_error as_i32 _ _ Nt)), compounded_snoc.
  rewrite (Et2 C), (Et C), (Vt C), Z.add_comm. reflexivity.
Qed.

(** ** The loops *)

Definition tag_ok {R} (look : Z -> outcome R) (p : Z * Z) : Prop := succ (look (fst p)) /\ succ (look (snd p)).

Lemma place_succ chk gran lato lono dg d di i s : Forall in_i64 (dn_lat d) -> Forall in_i64 (dn_lon d) ->
  (i < length (dn_id d))%nat -> dense_pre chk dg d di i s ->
  (exists d0 id rla rlo la lo, at_ (dn_id d) i = Ret d0 /\ arith_i64 chk (d0 + last_id s) = Ret id /\
     dense_raw chk (dn_lat d) i (last_lat s) = Ret rla /\ dense_raw chk (dn_lon d) i (last_lon s) = Ret rlo /\
     dense_internal chk gran lato rla = Ret la /\ dense_internal chk gran lono rlo = Ret lo) <->
  place_ok chk gran lato lono d i.
Proof.
  intros Hla Hlo Hi [[V1 (V2 & V2') (V3 & V3') V4 V5 V6 V7] Vt]. destruct (lt_nth _ _ Hi) as (d0 & N0). unfold place_ok. split.
  - intros (d0' & id & rla & rlo & la & lo & E1 & E2 & E3 & E4 & E5 & E6). apply at_inv in E1. rewrite N0 in E1. injection E1 as <-.
    apply dense_raw_iff in E3 as (L1 & I1 & ->); [|assumption ..]. apply dense_raw_iff in E4 as (L2 & I2 & ->); [|assumption ..].
    split; [exact L1|]. split; [exact L2|]. split.
    + apply arith64_iff in E2 as (F & _). apply (wrapped64_fits _ _ _ _ V1) in F. now rewrite (sum_to_next _ _ _ N0) in F.
    + split; apply dense_internal_succ; try assumption; now eexists; eassumption.
  - intros (L1 & L2 & F & P1 & P2).
    pose proof (proj1 P1) as I1. pose proof (proj1 P2) as I2.
    apply (dense_internal_succ _ _ _ _ I1) in P1 as (la & E5). apply (dense_internal_succ _ _ _ _ I2) in P2 as (lo & E6).
    exists d0, (as_i64 (d0 + last_id s)), (sum_to i (dn_lat d)), (sum_to i (dn_lon d)), la, lo.
    split; [now apply at_inv|]. split.
    { apply arith64_iff. split; [|reflexivity]. apply (wrapped64_fits _ _ _ _ V1). now rewrite (sum_to_next _ _ _ N0). }
    split; [now apply dense_raw_iff|]. split; [now apply dense_raw_iff|]. easy.
Qed.

(** A generic loop: the step succeeds exactly if [ok i] and the tags can be taken. *)
Lemma loop_succ {A} (step : nat -> dense_state -> outcome (A * dense_state)) (Inv : nat -> dense_state -> Prop)
    (ok : nat -> Prop) (tags : nat -> list Z -> Prop) (N : nat) :
  (forall i s, (i < N)%nat -> Inv i s -> forall n,
     (succ (step i s) /\ (forall a s', step i s = Ret (a, s') -> tags n (kv_left s'))) <->
     (ok i /\ tags (S n) (kv_left s))) ->
  (forall i s a s', (i < N)%nat -> Inv i s -> step i s = Ret (a, s') -> Inv (S i) s') ->
  (forall kv, tags 0%nat kv) ->
  forall n i s, (i + n = N)%nat -> Inv i s ->
  (succ (dense_loop step n i s) <-> (forall k, (i <= k < N)%nat -> ok k) /\ tags n (kv_left s)).
Proof.
  intros Hs Hi H0. induction n as [|n IH]; intros i s E V; cbn [dense_loop].
  - rewrite succ_ret. split; [|easy]. intros _. split; [intros k Hk; lia|apply H0].
  - assert (L : (i < N)%nat) by lia. rewrite succ_bind. split.
    + intros ((a & s') & Es & H). apply succ_bind in H as (r & Er & _).
      assert (R : succ (dense_loop step n (S i) s')) by now exists r.
      apply IH in R as (R1 & R2); [|lia|eapply Hi; eassumption].
      destruct (proj1 (Hs i s L V n)) as (O & T).
      { split; [now eexists; exact Es|]. intros a' s'' E2. rewrite Es in E2. injection E2 as <- <-. exact R2. }
      split; [|exact T]. intros k Hk. destruct (Nat.eq_dec k i) as [->|Nk]; [exact O|]. apply R1. lia.
    + intros (O & T). destruct (proj2 (Hs i s L V n)) as (((a & s') & Es) & T').
      { split; [apply O; lia|exact T]. }
      exists (a, s'). split; [exact Es|]. apply succ_bind.
      destruct (proj2 (IH (S i) s' ltac:(lia) (Hi _ _ _ _ L V Es))) as (r & Er).
      { split; [intros k Hk; apply O; lia|]. now apply T' with (1 := Es). }
      exists r. split; [exact Er|]. now apply succ_ret.
Qed.

Definition taken (tag : Z * Z -> Prop) (n : nat) (kv : list Z) : Prop :=
  exists runs rest, kv = column runs ++ rest /\ length runs = n /\
    Forall (fun ps => good_run ps /\ Forall tag ps) runs.

Lemma taken_step tag n kv : taken tag (S n) kv <->
  exists ps lft, take_tags kv = Ret (ps, lft) /\ Forall tag ps /\ taken tag n lft.
Proof.
  split.
  - intros ([|ps runs] & rest & -> & L & F); [discriminate|]. inversion F as [|? ? (G & T) F']; subst.
    exists ps, (column runs ++ rest). split; [|split; [exact T|]].
    + unfold column. cbn [flat_map]. rewrite <- app_assoc. now apply take_tags_run.
    + exists runs, rest. split; [reflexivity|]. split; [now injection L|exact F'].
  - intros (ps & lft & E & T & runs & rest & -> & L & F). apply take_tags_inv in E as (-> & G).
    exists (ps :: runs), rest. split; [unfold column; cbn [flat_map]; now rewrite app_assoc|]. split; [cbn; now f_equal|]. now constructor.
Qed.
Lemma taken0 tag kv : taken tag 0 kv.
Proof. exists [], kv. split; [reflexivity|]. split; [reflexivity|constructor]. Qed.

Lemma s_step_inv chk gran lato lono dg st d di i s o s' : Forall in_i64 (dn_lat d) -> Forall in_i64 (dn_lon d) ->
  dense_pre chk dg d di i s -> s_dense_step chk gran lato lono dg st d di i s = Ret (o, s') -> dense_pre chk dg d di (S i) s'.
Proof.
  intros Hla Hlo V E. unfold s_dense_step in E. binds E. injection E as <- <-.
  match goal with E : dense_meta _ _ _ _ _ _ _ = Ret (_, (?a, ?b, ?c, ?e)) |- _ => rename E into Em end.
  split.
  - edestruct (core_inv chk gran lato lono dg (at_z st) d di i s) as (V' & _); [exact Hla|exact Hlo|exact (dp_inv _ _ _ _ _ _ V)|eassumption ..|exact V'].
  - intros C. cbn [last_timestamp]. eapply dense_meta_time; eassumption.
Qed.

Lemma s_tags_succ st ps : succ (omapM (s_tag_at st) ps) <-> Forall (tag_ok (at_z st)) ps.
Proof.
  rewrite succ_omapM. split; apply Forall_impl; intros p H.
  - unfold s_tag_at in H. apply succ_bind in H as (k & E & H). apply succ_bind in H as (v & E2 & _). split; eexists; eassumption.
  - destruct H as ((k & E) & (v & E2)). unfold s_tag_at. rewrite E. cbn [obind]. rewrite E2. now eexists.
Qed.

Lemma s_step_succ chk gran lato lono dg st d di i s n : Forall in_i64 (dn_lat d) -> Forall in_i64 (dn_lon d) ->
  (i < length (dn_id d))%nat -> dense_pre chk dg d di i s ->
  (succ (s_dense_step chk gran lato lono dg st d di i s) /\
   (forall a s', s_dense_step chk gran lato lono dg st d di i s = Ret (a, s') -> taken (tag_ok (at_z st)) n (kv_left s'))) <->
  ((place_ok chk gran lato lono d i /\ meta_ok chk dg (at_z st) di i) /\ taken (tag_ok (at_z st)) (S n) (kv_left s)).
Proof.
  intros Hla Hlo Hi V. rewrite taken_step. split.
  - intros (((o & s') & E) & H). specialize (H _ _ E). unfold s_dense_step in E. binds E. injection E as <- <-. cbn [kv_left] in H.
    split; [split|].
    + apply (place_succ chk gran lato lono dg d di i s Hla Hlo Hi V). do 6 eexists. repeat (split; [eassumption|]). eassumption.
    + eapply dense_meta_succ; [exact V|]. eexists. eassumption.
    + do 2 eexists. split; [reflexivity|]. split; [|exact H]. apply s_tags_succ. eexists. eassumption.
  - intros ((P & M) & ps & lft & Et & Tp & Tn).
    apply (place_succ chk gran lato lono dg d di i s Hla Hlo Hi V) in P as (d0 & id & rla & rlo & la & lo & E1 & E2 & E3 & E4 & E5 & E6).
    apply (dense_meta_succ chk dg (at_z st) d di i s id V) in M as ((m & [[[ts cs] uid] sid]) & Em).
    apply s_tags_succ in Tp as (tags & Etg).
    assert (R : s_dense_step chk gran lato lono dg st d di i s = Ret (SNode (SN m tags (Some (la, lo))), DS id rla rlo ts cs uid sid lft)).
    { unfold s_dense_step. rewrite E1. cbn [obind]. rewrite E2. cbn [obind]. rewrite E3. cbn [obind]. rewrite E4. cbn [obind].
      rewrite E5. cbn [obind]. rewrite E6. cbn [obind]. rewrite Et. cbn [obind]. rewrite Etg. cbn [obind]. rewrite Em. reflexivity. }
    rewrite R. split; [now eexists|]. intros a s' X. injection X as <- <-. exact Tn.
Qed.

Lemma s_dense_succ chk gran lato lono dg st d : Forall in_i64 (dn_lat d) -> Forall in_i64 (dn_lon d) ->
  let di := unwrap_or (dn_info d) di0 in
  succ (s_decode_dense chk gran lato lono dg st d) <->
  (forall i, (i < length (dn_id d))%nat -> place_ok chk gran lato lono d i /\ meta_ok chk dg (at_z st) di i) /\
  taken (tag_ok (at_z st)) (length (dn_id d)) (dn_keys_vals d).
Proof.
  intros Hla Hlo di. unfold s_decode_dense. fold di.
  rewrite (loop_succ (s_dense_step chk gran lato lono dg st d di) (dense_pre chk dg d di)
    (fun i => place_ok chk gran lato lono d i /\ meta_ok chk dg (at_z st) di i) (taken (tag_ok (at_z st))) (length (dn_id d))).
  - cbn [ds0 kv_left]. split; intros (H & T); (split; [|exact T]); intros i Hi; apply H; lia.
  - intros i s Hi V n. now apply s_step_succ.
  - intros i s a s' Hi V E. eapply s_step_inv; eassumption.
  - intros kv. apply taken0.
  - lia.
  - apply dense_pre0.
Qed.

(** Arc *)
Definition a_user (st : list (option str)) (i : Z) : outcome str := do o <- at_z st i; unwrap o.

Lemma a_step_inv chk gran lato lono dg st d di i s o s' : Forall in_i64 (dn_lat d) -> Forall in_i64 (dn_lon d) ->
  dense_pre chk dg d di i s -> a_dense_step chk gran lato lono dg st d di i s = Ret (o, s') -> dense_pre chk dg d di (S i) s'.
Proof.
  intros Hla Hlo V E. unfold a_dense_step in E. binds E. injection E as <- <-.
  match goal with E : dense_meta _ _ _ _ _ _ _ = Ret (_, (?a, ?b, ?c, ?e)) |- _ => rename E into Em end.
  split.
  - edestruct (core_inv chk gran lato lono dg (a_user st) d di i s) as (V' & _); [exact Hla|exact Hlo|exact (dp_inv _ _ _ _ _ _ V)|eassumption ..|exact V'].
  - intros C. cbn [last_timestamp]. eapply dense_meta_time; eassumption.
Qed.

Lemma a_tag_succ st p : succ (a_tag_at st p) <-> tag_ok (at_z st) p.
Proof.
  split.
  - intros H. unfold a_tag_at in H. apply succ_bind in H as (k & E & H). apply succ_bind in H as (v & E2 & _). split; eexists; eassumption.
  - intros ((k & E) & (v & E2)). unfold a_tag_at. rewrite E. cbn [obind]. rewrite E2. now eexists.
Qed.
Lemma a_tags_succ st ps : succ (a_tags_at st ps) <-> Forall (tag_ok (at_z st)) ps.
Proof.
  unfold a_tags_at. rewrite succ_bind. split.
  - intros (l & E & _). assert (S : succ (omapM (a_tag_at st) ps)) by now exists l. apply succ_omapM in S.
    revert S. apply Forall_impl. intros p. apply a_tag_succ.
  - intros H. assert (S : succ (omapM (a_tag_at st) ps)).
    { apply succ_omapM. revert H. apply Forall_impl. intros p. apply a_tag_succ. }
    destruct S as (l & E). exists l. split; [exact E|]. now apply succ_ret.
Qed.

Definition a_taken (st : list (option str)) (d : dense_nodes) (n : nat) (kv : list Z) : Prop :=
  dn_keys_vals d = [] \/ taken (tag_ok (at_z st)) n kv.

Lemma a_step_succ chk gran lato lono dg st d di i s n : Forall in_i64 (dn_lat d) -> Forall in_i64 (dn_lon d) ->
  (i < length (dn_id d))%nat -> dense_pre chk dg d di i s ->
  (succ (a_dense_step chk gran lato lono dg st d di i s) /\
   (forall a s', a_dense_step chk gran lato lono dg st d di i s = Ret (a, s') -> a_taken st d n (kv_left s'))) <->
  ((place_ok chk gran lato lono d i /\ meta_ok chk dg (a_user st) di i) /\ a_taken st d (S n) (kv_left s)).
Proof.
  intros Hla Hlo Hi V. split.
  - intros (((o & s') & E) & H). specialize (H _ _ E). unfold a_dense_step in E. binds E. injection E as <- <-. cbn [kv_left] in H.
    split; [split|].
    + apply (place_succ chk gran lato lono dg d di i s Hla Hlo Hi V). do 6 eexists. repeat (split; [eassumption|]). eassumption.
    + eapply dense_meta_succ; [exact V|]. eexists. eassumption.
    + unfold a_taken in *. match goal with E : match dn_keys_vals d with _ => _ end = Ret (?ts, ?lft) |- _ => rename E into Ek end.
      destruct (dn_keys_vals d) as [|k0 kv]; [now left|]. right. destruct H as [H|H]; [discriminate|]. binds Ek. injection Ek as <- <-.
      apply taken_step. do 2 eexists. split; [eassumption|]. split; [|exact H]. apply a_tags_succ. eexists. eassumption.
  - intros ((P & M) & T).
    apply (place_succ chk gran lato lono dg d di i s Hla Hlo Hi V) in P as (d0 & id & rla & rlo & la & lo & E1 & E2 & E3 & E4 & E5 & E6).
    apply (dense_meta_succ chk dg (a_user st) d di i s id V) in M as ((m & [[[ts cs] uid] sid]) & Em).
    assert (K : exists tags lft, match dn_keys_vals d with
                      | [] => Ret (None, [])
                      | _ => do (ps, lft) <- take_tags (kv_left s);
                             do ts <- a_tags_at st ps; Ret (Some ts, lft)
                      end = Ret (tags, lft) /\ a_taken st d n lft).
    { unfold a_taken in *. destruct (dn_keys_vals d) as [|k0 kv]; [exists None, []; split; [reflexivity|now left]|].
      destruct T as [T|T]; [discriminate|]. apply taken_step in T as (ps & lft & Et & Tp & Tn). apply a_tags_succ in Tp as (tags & Etg).
      rewrite Et. cbn [obind]. rewrite Etg. cbn [obind]. do 2 eexists. split; [reflexivity|]. now right. }
    destruct K as (tags & lft & Ek & Tn).
    assert (R : a_dense_step chk gran lato lono dg st d di i s = Ret (ANode (AN m tags (Some (la, lo))), DS id rla rlo ts cs uid sid lft)).
    { unfold a_dense_step. rewrite E1. cbn [obind]. rewrite E2. cbn [obind]. rewrite E3. cbn [obind]. rewrite E4. cbn [obind].
      rewrite E5. cbn [obind]. rewrite E6. cbn [obind]. rewrite Ek. cbn [obind]. change (fun i0 : Z => do o <- at_z st i0; unwrap o) with (a_user st). rewrite Em. reflexivity. }
    rewrite R. split; [now eexists|]. intros a s' X. injection X as <- <-. exact Tn.
Qed.

Lemma a_dense_succ chk gran lato lono dg st d : Forall in_i64 (dn_lat d) -> Forall in_i64 (dn_lon d) ->
  let di := unwrap_or (dn_info d) di0 in
  succ (a_decode_dense chk gran lato lono dg st d) <->
  (forall i, (i < length (dn_id d))%nat -> place_ok chk gran lato lono d i /\ meta_ok chk dg (a_user st) di i) /\
  (dn_keys_vals d = [] \/ taken (tag_ok (at_z st)) (length (dn_id d)) (dn_keys_vals d)).
Proof.
  intros Hla Hlo di. unfold a_decode_dense. fold di.
  rewrite (loop_succ (a_dense_step chk gran lato lono dg st d di) (dense_pre chk dg d di)
    (fun i => place_ok chk gran lato lono d i /\ meta_ok chk dg (a_user st) di i) (a_taken st d) (length (dn_id d))).
  - cbn [ds0 kv_left]. split; intros (H & T); (split; [|exact T]); intros i Hi; apply H; lia.
  - intros i s Hi V n. now apply a_step_succ.
  - intros i s a s' Hi V E. eapply a_step_inv; eassumption.
  - intros kv. right. apply taken0.
  - lia.
  - apply dense_pre0.
Qed.

(** Positions only: no metadata. *)
Record place_pre (chk : profile) (d : dense_nodes) (i : nat) (s : dense_state) : Prop := {
  pp_id : wrapped64 chk (total (firstn i (dn_id d))) (last_id s);
  pp_lat : last_lat s = total (firstn i (dn_lat d)) /\ in_i32 (last_lat s);
  pp_lon : last_lon s = total (firstn i (dn_lon d)) /\ in_i32 (last_lon s)
}.
Lemma p_step_succ chk gran lato lono d i s : Forall in_i64 (dn_lat d) -> Forall in_i64 (dn_lon d) ->
  (i < length (dn_id d))%nat -> place_pre chk d i s ->
  (succ (p_dense_step chk gran lato lono d i s) <-> place_ok chk gran lato lono d i) /\
  (forall a s', p_dense_step chk gran lato lono d i s = Ret (a, s') -> place_pre chk d (S i) s').
Proof.
  intros Hla Hlo Hi [V1 (V2 & V2') (V3 & V3')].
  assert (V : dense_pre chk 1 (DenseNodes (dn_id d) None (dn_lat d) (dn_lon d) []) (DenseInfo [] [] [] [] [] []) i
    (DS (last_id s) (last_lat s) (last_lon s) 0 0 0 0 [])).
  { split; [|intros _; cbn; now destruct i]. split; cbn; try (split; assumption); try (destruct i; split; easy); now destruct i. }
  pose proof (place_succ chk gran lato lono 1 (DenseNodes (dn_id d) None (dn_lat d) (dn_lon d) []) (DenseInfo [] [] [] [] [] []) i
    (DS (last_id s) (last_lat s) (last_lon s) 0 0 0 0 []) Hla Hlo Hi V) as P.
  cbn [dn_id dn_lat dn_lon last_id last_lat last_lon] in P. split.
  - unfold p_dense_step. split.
    + intros ((o & s') & E). binds E. apply P. do 6 eexists. repeat (split; [first [reflexivity|eassumption]|]). eassumption.
    + intros H. apply P in H as (d0 & id & rla & rlo & la & lo & E1 & E2 & E3 & E4 & E5 & E6). rewrite E1. cbn [obind]. rewrite E2. cbn [obind].
      rewrite E3. cbn [obind]. rewrite E4. cbn [obind]. rewrite E5. cbn [obind]. rewrite E6. now eexists.
  - intros a s' E. unfold p_dense_step in E. binds E. injection E as <- <-.
    match goal with E : at_ _ _ = _ |- _ => apply at_inv in E; rename E into N0 end.
    repeat match goal with E : dense_raw _ _ _ _ = Ret _ |- _ => apply dense_raw_iff in E as (? & ? & ->); [|assumption ..] end.
    split; cbn [last_id last_lat last_lon]; [|now split|now split].
    match goal with E : arith_i64 _ _ = Ret _ |- _ => apply (arith64_wrapped _ _ _ _ _ V1) in E; now rewrite <- (total_snoc _ _ _ N0) in E end.
Qed.
Lemma p_dense_succ chk gran lato lono d : Forall in_i64 (dn_lat d) -> Forall in_i64 (dn_lon d) ->
  succ (p_decode_dense chk gran lato lono d) <-> forall i, (i < length (dn_id d))%nat -> place_ok chk gran lato lono d i.
Proof.
  intros Hla Hlo. unfold p_decode_dense.
  rewrite (loop_succ (p_dense_step chk gran lato lono d) (place_pre chk d) (place_ok chk gran lato lono d) (fun _ _ => True) (length (dn_id d))).
  - split; [intros (H & _) i Hi; apply H; lia|]. intros H. split; [|easy]. intros k Hk. apply H. lia.
  - intros i s Hi V n. destruct (p_step_succ chk gran lato lono d i s Hla Hlo Hi V) as (P & _). rewrite P. easy.
  - intros i s a s' Hi V E. exact (proj2 (p_step_succ chk gran lato lono d i s Hla Hlo Hi V) a s' E).
  - easy.
  - lia.
  - split; cbn; [easy| |]; split; try easy; unfold in_i32; lia.
Qed.

(** ** Strings *)

Lemma at_z_succ {A} (l : list A) i : succ (at_z l i) <-> 0 <= i < Z.of_nat (length l).
Proof.
  split.
  - intros (x & H). apply at_z_inv in H as (H1 & H2). apply nth_Some_lt in H2. lia.
  - intros H. destruct (lt_nth l (Z.to_nat i)) as (x & E); [lia|]. exists x. apply at_z_inv. split; [lia|exact E].
Qed.

Lemma s_strings_succ raw : succ (s_strings raw) <-> text_table raw.
Proof.
  split; [|apply text_table_strings]. intros (st & E). apply s_strings_inv in E as (E & <-).
  unfold text_table. apply Forall_map. eapply Forall_impl; [|exact E]. intros s Hs. now exists s.
Qed.
Lemma s_entry raw st i : s_strings raw = Ret st -> (succ (at_z st i) <-> entry raw i).
Proof. intros H. rewrite at_z_succ. apply s_strings_inv in H as (_ & <-). unfold entry. now rewrite map_length. Qed.
Lemma s_text raw st i : s_strings raw = Ret st -> (succ (at_z st i) <-> text_at raw i).
Proof.
  intros H. split; intros (s & E); exists s; [eapply string_at_table|eapply string_at_lookup]; eassumption.
Qed.
Lemma a_entry raw i : succ (at_z (a_strings raw) i) <-> entry raw i.
Proof. rewrite at_z_succ. unfold a_strings, entry. now rewrite map_length. Qed.
Lemma a_text raw i : succ (a_user (a_strings raw) i) <-> text_at raw i.
Proof.
  unfold a_user. rewrite succ_bind. split.
  - intros (o & E & s & E2). destruct o as [s'|]; [|discriminate]. injection E2 as ->. exists s.
    apply at_z_inv in E as (H1 & H2). unfold a_strings in H2. rewrite nth_error_map in H2.
    destruct (nth_error raw (Z.to_nat i)) as [bs|] eqn:E; [|discriminate]. cbn in H2. injection H2 as H2.
    apply utf8_decode_inv in H2 as (H2 & ->). now split.
  - intros (s & H1 & H2 & H3). exists (Some s). split; [|now exists s]. apply at_z_inv. split; [exact H1|].
    unfold a_strings. rewrite nth_error_map, H3. cbn. now rewrite utf8_decode_encode.
Qed.

(** ** Dense groups *)

Lemma place_iff chk b d :
  (forall i, (i < length (dn_id d))%nat -> place_ok chk (gran_of b) (lat_off_of b) (lon_off_of b) d i) <-> place_accepted chk b d.
Proof.
  unfold place_accepted, place_ok. split.
  - intros H. split; [|split].
    + destruct (Nat.eq_dec (length (dn_id d)) 0) as [->|N]; [lia|]. specialize (H (length (dn_id d) - 1)%nat ltac:(lia)). lia.
    + destruct (Nat.eq_dec (length (dn_id d)) 0) as [->|N]; [lia|]. specialize (H (length (dn_id d) - 1)%nat ltac:(lia)). lia.
    + intros i Hi. apply H. exact Hi.
  - intros (H1 & H2 & H) i Hi. split; [lia|]. split; [lia|]. now apply H.
Qed.

Lemma cut_map ts cut : Forall2 (as32 false) ts cut <-> cut = map as_i32 ts.
Proof.
  split.
  - intros H. induction H as [|t c ts cut E _ IH]; [reflexivity|]. cbn. apply as32_false_iff in E as ->. now rewrite IH.
  - intros ->. induction ts as [|t ts IH]; cbn; constructor; [now apply as32_false_iff|exact IH].
Qed.

Lemma meta_iff chk b raw user n di : (forall i, succ (user i) <-> text_at raw i) -> n <> 0%nat ->
  (forall i, (i < n)%nat -> meta_ok chk (Z.quot (date_gran_of b) 1000) user di i) <-> columns_accepted chk b raw n di.
Proof.
  intros Hu Hn. unfold columns_accepted, meta_ok, times_accepted. split.
  - intros H. pose proof (H (n - 1)%nat ltac:(lia)) as L. destruct L as (L1 & L2 & L3 & L4 & L5 & _).
    do 5 (split; [lia|]). split.
    + intros C. eexists. split; [now apply cut_map|]. intros i t Hi Ht. destruct (H i Hi) as (_ & _ & _ & _ & _ & T & _). exact (T C t Ht).
    + intros i Hi. destruct (H i Hi) as (_ & _ & _ & _ & _ & _ & F & U & sid & S & N). split; [exact F|]. split; [exact U|].
      exists sid. split; [exact S|]. now apply Hu.
  - intros (L1 & L2 & L3 & L4 & L5 & T & H) i Hi. do 5 (split; [lia|]). destruct (H i Hi) as (F & U & sid & S & N).
    split; [|split; [exact F|split; [exact U|]]].
    + intros C t Ht. destruct (T C) as (cut & Hc & D). apply cut_map in Hc as ->. exact (D i t Hi Ht).
    + exists sid. split; [exact S|]. now apply Hu.
Qed.

Lemma dense_iff chk b raw user d : (forall i, succ (user i) <-> text_at raw i) ->
  (forall i, (i < length (dn_id d))%nat -> place_ok chk (gran_of b) (lat_off_of b) (lon_off_of b) d i /\
     meta_ok chk (Z.quot (date_gran_of b) 1000) user (unwrap_or (dn_info d) di0) i) <-> dense_accepted chk b raw d.
Proof.
  intros Hu. unfold dense_accepted. rewrite <- place_iff. split.
  - intros H. split; [intros i Hi; now apply H|]. destruct (dn_id d) as [|x l] eqn:E; [now left|right].
    assert (M : columns_accepted chk b raw (length (x :: l)) (unwrap_or (dn_info d) di0)).
    { apply (meta_iff chk b raw user); [exact Hu|discriminate|]. intros i Hi. now apply H. }
    destruct (dn_info d) as [di|] eqn:Ei; [now exists di|]. exfalso. destruct M as (M & _). cbn in M. lia.
  - intros (P & M) i Hi. split; [now apply P|]. destruct M as [M|(di & -> & M)]; [rewrite M in Hi; cbn in Hi; lia|].
    cbn [unwrap_or]. exact (proj2 (meta_iff chk b raw user (length (dn_id d)) di Hu ltac:(lia)) M i Hi).
Qed.

Lemma taken_iff raw (tag : Z * Z -> Prop) n kv : (forall p, tag p <-> entry raw (fst p) /\ entry raw (snd p)) ->
  taken tag n kv <-> tags_accepted raw n kv.
Proof.
  intros H. unfold taken, tags_accepted. split; intros (runs & rest & E & L & F); exists runs, rest; (split; [exact E|]); (split; [exact L|]);
    revert F; apply Forall_impl; intros ps (G & T); (split; [exact G|]); revert T; apply Forall_impl; intros p; apply H.
Qed.

(** ** Ways and relations *)

Lemma refs_from_succ chk : forall l last pre, wrapped64 chk (total pre) last ->
  (succ (sum_refs_from chk last l) <-> forall i, (i < length l)%nat -> fits64 chk (total (pre ++ firstn (S i) l))).
Proof.
  induction l as [|d l IH]; intros last pre W; cbn [sum_refs_from].
  - rewrite succ_ret. split; [|easy]. intros _ i Hi. cbn in Hi. lia.
  - rewrite succ_bind. pose proof (wrapped64_fits chk (total pre) last d W) as F. rewrite (Z.add_comm d) in F.
    assert (T : total (pre ++ [d]) = total pre + d) by (rewrite total_app; cbn; lia).
    split.
    + intros (x & E & H). apply succ_bind in H as (xs & Ex & _).
      pose proof (arith64_wrapped chk d (total pre) last x W) as W'. rewrite (Z.add_comm d) in W'. specialize (W' E).
      rewrite <- T in W'. apply arith64_iff in E as (E & _). apply F in E.
      intros [|i] Hi.
      * cbn [firstn]. now rewrite T.
      * change (firstn (S (S i)) (d :: l)) with ([d] ++ firstn (S i) l). rewrite app_assoc.
        apply (IH x (pre ++ [d]) W'); [now exists xs|]. cbn in Hi. lia.
    + intros H. assert (E : arith_i64 chk (last + d) = Ret (as_i64 (last + d))).
      { apply arith64_iff. split; [|reflexivity]. apply F. rewrite <- T. specialize (H 0%nat ltac:(cbn; lia)). exact H. }
      eexists. split; [exact E|]. apply succ_bind.
      pose proof (arith64_wrapped chk d (total pre) last (as_i64 (last + d)) W) as W'. rewrite (Z.add_comm d) in W'. specialize (W' E). rewrite <- T in W'.
      destruct (proj2 (IH _ (pre ++ [d]) W')) as (xs & Ex).
      { intros i Hi. specialize (H (S i) ltac:(cbn; lia)). rewrite <- app_assoc. exact H. }
      exists xs. split; [exact Ex|]. now apply succ_ret.
Qed.
Lemma refs_succ chk l : Forall in_i64 l -> succ (sum_refs chk l) <-> refs_accepted chk l.
Proof.
  intros Hl. unfold refs_accepted. destruct l as [|d l]; cbn [sum_refs].
  - rewrite succ_ret. split; [|easy]. intros _ i Hi. cbn in Hi. lia.
  - assert (I : in_i64 d) by now inversion Hl.
    assert (W : wrapped64 chk (total [d]) d).
    { cbn. rewrite Z.add_0_r. split; [|easy]. symmetry. now apply as_i64_id. }
    rewrite succ_bind. split.
    + intros (xs & E & _) [|i] Hi.
      * intros _. unfold sum_to. cbn. now rewrite Z.add_0_r.
      * apply (proj1 (refs_from_succ chk l d [d] W)); [now exists xs|]. cbn in Hi. lia.
    + intros H. destruct (proj2 (refs_from_succ chk l d [d] W)) as (xs & E).
      { intros i Hi. exact (H (S i) ltac:(cbn; lia)). }
      exists xs. split; [exact E|]. now apply succ_ret.
Qed.

Lemma info_succ raw del user o id : (forall i, succ (user i) <-> text_at raw i) ->
  succ (obj_meta del user o id) <-> info_accepted raw o /\ succ (del (i_visible (unwrap_or o info0))).
Proof.
  intros Hu. split.
  - intros (m & H). apply obj_meta_inv in H as (ts & cs & uid & sid & name & v & dl & H). cbv zeta in H.
    destruct H as (E1 & E2 & E3 & E4 & E5 & E6 & E7 & _). split; [|now exists dl].
    destruct o as [inf|]; [|discriminate]. cbn [unwrap_or] in *. exists inf, sid. split; [reflexivity|].
    do 4 (split; [congruence|]). split; [exact E4|]. apply Hu. now exists name.
  - intros ((inf & sid & -> & Nv & Nt & Nc & Nu & Es & Tx) & dl & Ed). apply Hu in Tx as (name & En). cbn [unwrap_or] in *.
    unfold obj_meta. cbv zeta. cbn [unwrap_or].
    destruct (i_timestamp inf); [|easy]. cbn [unwrap obind]. rewrite Ed. cbn [unwrap obind].
    destruct (i_changeset inf); [|easy]. cbn [unwrap obind]. destruct (i_uid inf); [|easy]. cbn [unwrap obind].
    rewrite Es. cbn [unwrap obind]. rewrite En. cbn [obind]. destruct (i_version inf); [|easy]. cbn [unwrap obind]. now eexists.
Qed.
Lemma s_del_succ v : succ (s_deleted v) <-> True.
Proof. split; [easy|]. intros _. now eexists. Qed.
Lemma a_del_succ v : succ (a_deleted v) <-> v <> None.
Proof. unfold a_deleted. destruct v; cbn; split; try easy; [intros _; now eexists|intros (x & H); discriminate]. Qed.

Lemma Forall_combine {A B} (P : A -> Prop) (Q : B -> Prop) : forall l l', length l = length l' ->
  (Forall (fun p => P (fst p) /\ Q (snd p)) (combine l l') <-> Forall P l /\ Forall Q l').
Proof.
  induction l as [|a l IH]; intros [|b l'] L; try discriminate; cbn [combine].
  - split; [split; constructor|constructor].
  - injection L as L. specialize (IH l' L). split.
    + intros H. inversion H as [|? ? (H1 & H2) H3]; subst. apply IH in H3 as (H3 & H4). split; now constructor.
    + intros (H1 & H2). inversion H1; subst. inversion H2; subst. constructor; [easy|]. now apply IH.
Qed.

Lemma s_tags_of_succ raw st keys vals : s_strings raw = Ret st ->
  succ (s_tags_of st keys vals) <-> length keys = length vals /\ Forall (entry raw) keys /\ Forall (entry raw) vals.
Proof.
  intros Hs. unfold s_tags_of. rewrite succ_bind. split.
  - intros (u & E & H). unfold assert in E. destruct (Nat.eqb (length keys) (length vals)) eqn:X; [|discriminate].
    apply Nat.eqb_eq in X. split; [exact X|]. apply s_tags_succ in H. apply (Forall_combine _ _ _ _ X).
    revert H. apply Forall_impl. intros p (H1 & H2). split; now apply (s_entry raw st).
  - intros (L & H). exists tt. split; [unfold assert; now rewrite (proj2 (Nat.eqb_eq _ _) L)|].
    apply s_tags_succ. apply (Forall_combine _ _ _ _ L) in H. revert H. apply Forall_impl. intros p (H1 & H2). split; now apply (s_entry raw st).
Qed.

Lemma Forall_combine' {A B} (P : A -> Prop) (Q : B -> Prop) : forall l l',
  (Forall (fun p => P (fst p) /\ Q (snd p)) (combine l l') <-> Forall P (firstn (length l') l) /\ Forall Q (firstn (length l) l')).
Proof.
  induction l as [|a l IH]; intros [|b l']; cbn [combine length firstn];
    [split; [intros _; split; constructor|intros _; constructor]..|].
  specialize (IH l'). split.
  - intros H. inversion H as [|? ? (H1 & H2) H3]; subst. apply IH in H3 as (H3 & H4). split; now constructor.
  - intros (H1 & H2). inversion H1; subst. inversion H2; subst. constructor; [easy|]. now apply IH.
Qed.
Lemma key_rest_succ chk raw keys vals : succ (a_key_rest chk (a_strings raw) keys vals) <->
  forall k, nth_error keys (length vals) = Some k -> a_tag_rest chk (length keys) (length vals) = true -> entry raw k.
Proof.
  unfold a_key_rest. destruct (nth_error keys (length vals)) as [k|]; [|rewrite succ_ret; split; [intros _; discriminate|easy]].
  destruct (a_tag_rest chk (length keys) (length vals)).
  - rewrite succ_bind. split.
    + intros (x & E & _) k' Hk _. injection Hk as <-. apply a_entry. now exists x.
    + intros H. destruct (proj2 (a_entry raw k) (H k eq_refl eq_refl)) as (x & E). exists x. split; [exact E|]. now apply succ_ret.
  - rewrite succ_ret. split; [intros _ k' _; discriminate|easy].
Qed.
Lemma a_tags_of_succ chk raw keys vals : succ (a_tags_of chk (a_strings raw) keys vals) <-> a_pairs_accepted chk raw keys vals.
Proof.
  unfold a_tags_of, a_pairs_accepted. rewrite succ_bind.
  assert (A : succ (a_tags_at (a_strings raw) (combine keys vals)) <->
    Forall (entry raw) (firstn (length vals) keys) /\ Forall (entry raw) (firstn (length keys) vals)).
  { rewrite a_tags_succ, <- Forall_combine'. split; (apply Forall_impl; intros p (H1 & H2); split; now apply a_entry). }
  split.
  - intros (l & E & H). apply succ_bind in H as (u & Eu & _). destruct (proj1 A) as (H1 & H2); [now exists l|].
    do 2 (split; [assumption|]). apply key_rest_succ. now exists u.
  - intros (H1 & H2 & H3). destruct (proj2 A) as (l & E); [easy|]. exists l. split; [exact E|]. apply succ_bind.
    apply key_rest_succ in H3 as (u & Eu). exists u. split; [exact Eu|]. now apply succ_ret.
Qed.

Lemma type_succ t : succ (member_type t) <-> 0 <= t <= 2.
Proof.
  split.
  - intros (ty & H). apply member_type_inv in H. subst. destruct ty; cbn; lia.
  - intros H. assert (C : t = 0 \/ t = 1 \/ t = 2) by lia. destruct C as [->|[->| ->]]; now eexists.
Qed.

Lemma zip_succ {R} raw (role : Z -> outcome R) : (forall i, succ (role i) <-> entry raw i) -> forall types ids roles,
  let n := Nat.min (length types) (Nat.min (length ids) (length roles)) in
  (succ (zip_members role types ids roles) <-> Forall (fun t => 0 <= t <= 2) (firstn n types) /\ Forall (entry raw) (firstn n roles)).
Proof.
  intros Hr. induction types as [|t types IH]; intros [|id ids] [|r roles]; cbn [zip_members length Nat.min firstn];
    try (rewrite succ_ret; split; [split; constructor|easy]).
  specialize (IH ids roles). cbv zeta in *. rewrite succ_bind. split.
  + intros (ty & E & H). apply succ_bind in H as (x & Ex & H). apply succ_bind in H as (l & El & _).
    destruct (proj1 IH) as (T & F); [now exists l|]. split; constructor; try assumption; [apply type_succ; now exists ty|apply Hr; now exists x].
  + intros (T & F). inversion T; subst. inversion F; subst.
    destruct (proj2 (type_succ t)) as (ty & E); [assumption|]. exists ty. split; [exact E|]. apply succ_bind.
    destruct (proj2 (Hr r)) as (x & Ex); [assumption|]. exists x. split; [exact Ex|]. apply succ_bind.
    destruct (proj2 IH) as (l & El); [easy|]. exists l. split; [exact El|]. now apply succ_ret.
Qed.
Lemma rest_succ rest types ids roles : succ (rest_type rest types ids roles) <->
  forall t, nth_error types (Nat.min (length ids) (length roles)) = Some t -> rest (length types) (length ids) (length roles) = true -> 0 <= t <= 2.
Proof.
  unfold rest_type. destruct (nth_error types _) as [t|]; [|rewrite succ_ret; split; [intros _; discriminate|easy]].
  destruct (rest _ _ _).
  - rewrite succ_bind. split.
    + intros (x & E & _) t' Ht _. injection Ht as <-. apply type_succ. now exists x.
    + intros H. destruct (proj2 (type_succ t) (H t eq_refl eq_refl)) as (x & E). exists x. split; [exact E|]. now apply succ_ret.
  - rewrite succ_ret. split; [intros _ t' _; discriminate|easy].
Qed.
Lemma members_succ {R} raw (role : Z -> outcome R) rest types ids memids roles : (forall i, succ (role i) <-> entry raw i) -> length ids = length memids ->
  (succ (zip_members role types ids roles) /\ succ (rest_type rest types ids roles)) <-> members_accepted rest raw types memids roles.
Proof.
  intros Hr L. unfold members_accepted. cbv zeta. rewrite (zip_succ raw role Hr), rest_succ, L. tauto.
Qed.

Lemma s_way_succ (chk : build) raw st p : s_strings raw = Ret st -> ok_way p -> is_some (pw_id p) = true ->
  succ (s_decode_way chk st p) <-> way_accepted chk raw p.
Proof.
  intros Hs (_ & _ & _ & _ & Hr) Hi. destruct (pw_id p) as [id|] eqn:Ei; [|discriminate].
  unfold s_decode_way, way_accepted. rewrite Ei. cbn [unwrap obind].
  pose proof (info_succ raw s_deleted (at_z st) (pw_info p) id (fun i => s_text raw st i Hs)) as I. rewrite s_del_succ in I.
  pose proof (refs_succ chk _ Hr) as R. pose proof (s_tags_of_succ raw st (pw_keys p) (pw_vals p) Hs) as T. split.
  - intros H. apply succ_bind in H as (ts & E1 & H). apply succ_bind in H as (ns & E2 & H). apply succ_bind in H as (m & E3 & _).
    split; [apply T; now exists ts|]. split; [apply R; now exists ns|]. apply I. now exists m.
  - intros (T1 & H1 & H2). destruct (proj2 T T1) as (ts & E1). apply R in H1 as (ns & E2). destruct (proj2 I) as (m & E3); [easy|].
    rewrite E1. cbn [obind]. rewrite E2. cbn [obind]. rewrite E3. now eexists.
Qed.
Lemma a_way_succ chk raw p : ok_way p -> succ (a_decode_way chk (a_strings raw) p) <-> a_way_accepted chk raw p.
Proof.
  intros (_ & _ & _ & _ & Hr). unfold a_decode_way, a_way_accepted, has_flag, opt_is.
  change (fun i : Z => do o <- at_z (a_strings raw) i; unwrap o) with (a_user (a_strings raw)).
  pose proof (info_succ raw a_deleted (a_user (a_strings raw)) (pw_info p) (unwrap_or (pw_id p) 0) (a_text raw)) as I. rewrite a_del_succ in I.
  pose proof (refs_succ chk _ Hr) as R. pose proof (a_tags_of_succ chk raw (pw_keys p) (pw_vals p)) as T. split.
  - intros H. apply succ_bind in H as (ts & E1 & H). apply succ_bind in H as (ns & E2 & H). apply succ_bind in H as (m & E3 & _).
    destruct (proj1 I) as (I1 & I2); [now exists m|]. split; [apply T; now exists ts|]. split; [apply R; now exists ns|]. split; [exact I1|].
    destruct I1 as (inf & _ & I1 & _). rewrite I1 in *. now exists inf.
  - intros (T1 & H1 & H2 & inf & Ef & Nf). destruct (proj2 T T1) as (ts & E1). apply R in H1 as (ns & E2).
    destruct (proj2 I) as (m & E3); [split; [exact H2|]; rewrite Ef; exact Nf|].
    rewrite E1. cbn [obind]. rewrite E2. cbn [obind]. rewrite E3. now eexists.
Qed.

Lemma s_rel_succ chk raw st p : s_strings raw = Ret st -> ok_rel p -> succ (s_decode_rel chk st p) <-> rel_accepted chk raw p.
Proof.
  intros Hs (_ & _ & _ & _ & _ & Hm & _). unfold s_decode_rel, rel_accepted.
  pose proof (info_succ raw s_deleted (at_z st) (pr_info p) (unwrap_or (pr_id p) 0) (fun i => s_text raw st i Hs)) as I. rewrite s_del_succ in I.
  pose proof (refs_succ chk _ Hm) as R. pose proof (s_tags_of_succ raw st (pr_keys p) (pr_vals p) Hs) as T.
  assert (M : forall ns, sum_refs chk (pr_memids p) = Ret ns -> _) by
    (intros ns E; exact (members_succ raw (at_z st) (s_member_rest chk) (pr_types p) ns (pr_memids p) (pr_roles p)
       (fun i => s_entry raw st i Hs) (sum_refs_len _ _ _ E))).
  split.
  - intros H. apply succ_bind in H as (ts & E1 & H). apply succ_bind in H as (ns & E2 & H). apply succ_bind in H as (ms & E3 & H).
    apply succ_bind in H as (u & E4 & H). apply succ_bind in H as (m & E5 & _).
    split; [apply T; now exists ts|]. split; [apply R; now exists ns|].
    split; [apply (M ns E2); split; [now exists ms|now exists u]|]. apply I. now exists m.
  - intros (T1 & H1 & Z & H2). destruct (proj2 T T1) as (ts & E1). apply R in H1 as (ns & E2). destruct (proj2 I) as (m & E3); [easy|].
    apply (M ns E2) in Z as ((ms & E4) & (u & E5)).
    rewrite E1. cbn [obind]. rewrite E2. cbn [obind]. rewrite E4. cbn [obind]. rewrite E5. cbn [obind]. rewrite E3. now eexists.
Qed.
Lemma a_rel_succ chk raw p : ok_rel p -> succ (a_decode_rel chk (a_strings raw) p) <-> a_rel_accepted chk raw p.
Proof.
  intros (_ & _ & _ & _ & _ & Hm & _). unfold a_decode_rel, a_rel_accepted, has_flag, opt_is.
  change (fun i : Z => do o <- at_z (a_strings raw) i; unwrap o) with (a_user (a_strings raw)).
  pose proof (info_succ raw a_deleted (a_user (a_strings raw)) (pr_info p) (unwrap_or (pr_id p) 0) (a_text raw)) as I. rewrite a_del_succ in I.
  pose proof (refs_succ chk _ Hm) as R. pose proof (a_tags_of_succ chk raw (pr_keys p) (pr_vals p)) as T.
  assert (M : forall ns, sum_refs chk (pr_memids p) = Ret ns -> _) by
    (intros ns E; exact (members_succ raw (at_z (a_strings raw)) (a_member_rest chk) (pr_types p) ns (pr_memids p) (pr_roles p)
       (a_entry raw) (sum_refs_len _ _ _ E))).
  split.
  - intros H. apply succ_bind in H as (ts & E1 & H). apply succ_bind in H as (ns & E2 & H). apply succ_bind in H as (ms & E3 & H).
    apply succ_bind in H as (u & E4 & H). apply succ_bind in H as (m & E5 & _).
    destruct (proj1 I) as (I1 & I2); [now exists m|]. split; [apply T; now exists ts|]. split; [apply R; now exists ns|].
    split; [apply (M ns E2); split; [now exists ms|now exists u]|]. split; [exact I1|].
    destruct I1 as (inf & _ & I1 & _). rewrite I1 in *. now exists inf.
  - intros (T1 & H1 & Z & H2 & inf & Ef & Nf). destruct (proj2 T T1) as (ts & E1). apply R in H1 as (ns & E2).
    destruct (proj2 I) as (m & E3); [split; [exact H2|]; rewrite Ef; exact Nf|].
    apply (M ns E2) in Z as ((ms & E4) & (u & E5)).
    rewrite E1. cbn [obind]. rewrite E2. cbn [obind]. rewrite E4. cbn [obind]. rewrite E5. cbn [obind]. rewrite E3. now eexists.
Qed.

Lemma Forall_iff {A} (P Q R : A -> Prop) l : Forall R l -> (forall a, R a -> (P a <-> Q a)) -> (Forall P l <-> Forall Q l).
Proof.
  intros H E. induction H as [|a l Ra _ IH]; [split; constructor|]. split; intros X; inversion X; subst; (constructor; [now apply (E a Ra)|now apply IH]).
Qed.
Lemma Forall_both {A} (P Q : A -> Prop) l : Forall P l -> Forall Q l -> Forall (fun a => P a /\ Q a) l.
Proof. intros H1 H2. rewrite Forall_forall in *. intros a Ha. split; auto. Qed.
