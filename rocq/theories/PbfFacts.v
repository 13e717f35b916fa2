(** Facts about decoding PBF blocks. *)
From Coq Require Import String ZArith List Bool Lia.
From Verif Require Import Base Utf8 Timestamp Obj PbWire PbMsg PbfRead SpecPbf SpecPbfRead.
Import ListNotations.
Open Scope Z_scope.

(** ** Sums, wrapping, lookups *)

Lemma total_app a b : total (a ++ b) = total a + total b.
Proof. unfold total. induction a as [|x a IH]; cbn [app fold_right]; [easy|]. rewrite IH. lia. Qed.

Lemma firstn_snoc {A} (l : list A) i x : nth_error l i = Some x -> firstn (S i) l = firstn i l ++ [x].
Proof.
  revert i; induction l as [|a l IH]; intros [|i] H; cbn in *; try easy.
  - now injection H as ->.
  - f_equal. now apply IH.
Qed.

Lemma total_snoc l i x : nth_error l i = Some x -> total (firstn (S i) l) = total (firstn i l) + x.
Proof. intros H. rewrite (firstn_snoc _ _ _ H), total_app. cbn. lia. Qed.

(** [y] is [x] up to wrapping, and exactly [x] in an overflow-checked build. *)
Definition wrapped64 (chk : profile) (x y : Z) : Prop := y = as_i64 x /\ (chk = true -> y = x).
Definition wrapped32 (chk : profile) (x y : Z) : Prop := y = as_i32 x /\ (chk = true -> y = x).

Lemma as_i64_add d x : as_i64 (d + as_i64 x) = as_i64 (x + d).
Proof.
  unfold as_i64. f_equal.
  replace (d + ((x + 2^63) mod 2^64 - 2^63) + 2^63) with ((x + 2^63) mod 2^64 + d) by lia.
  rewrite Z.add_mod_idemp_l by lia. f_equal. lia.
Qed.
Lemma as_i32_add d x : as_i32 (d + as_i32 x) = as_i32 (x + d).
Proof.
  unfold as_i32. f_equal.
  replace (d + ((x + 2^31) mod 2^32 - 2^31) + 2^31) with ((x + 2^31) mod 2^32 + d) by lia.
  rewrite Z.add_mod_idemp_l by lia. f_equal. lia.
Qed.

Lemma arith64_cases chk z y : arith_i64 chk z = Ret y -> y = as_i64 z /\ (chk = true -> y = z).
Proof.
  unfold arith_i64. destruct (in_i64b z) eqn:E.
  - intros H. injection H as <-. apply in_i64b_iff in E. now rewrite as_i64_id.
  - destruct chk; [easy|]. intros H. injection H as <-. easy.
Qed.
Lemma arith32_cases chk z y : arith_i32 chk z = Ret y -> y = as_i32 z /\ (chk = true -> y = z).
Proof.
  unfold arith_i32. destruct (in_i32b z) eqn:E.
  - intros H. injection H as <-. apply in_i32b_iff in E. now rewrite as_i32_id.
  - destruct chk; [easy|]. intros H. injection H as <-. easy.
Qed.

Lemma arith64_wrapped chk d x lx y : wrapped64 chk x lx -> arith_i64 chk (d + lx) = Ret y ->
  wrapped64 chk (x + d) y.
Proof.
  intros (H1 & H2) H. apply arith64_cases in H as (H3 & H4). split.
  - rewrite H3, H1. apply as_i64_add.
  - intros C. rewrite H4, H2 by easy. lia.
Qed.
Lemma arith32_wrapped chk d x lx y : wrapped32 chk x lx -> arith_i32 chk (d + lx) = Ret y ->
  wrapped32 chk (x + d) y.
Proof.
  intros (H1 & H2) H. apply arith32_cases in H as (H3 & H4). split.
  - rewrite H3, H1. apply as_i32_add.
  - intros C. rewrite H4, H2 by easy. lia.
Qed.

Lemma as_u32_i64 x : as_u32 (as_i64 x) = as_u32 x.
Proof.
  unfold as_u32, as_i64.
  replace ((x + 2^63) mod 2^64) with (x + 2^63 - 2^64 * ((x + 2^63) / 2^64)) by (rewrite Z.mod_eq; lia).
  replace (x + 2^63 - 2^64 * ((x + 2^63) / 2^64) - 2^63) with (x + (- 2^32 * ((x + 2^63) / 2^64)) * 2^32) by lia.
  apply Z.mod_add. lia.
Qed.
Lemma as_u32_i32 x : as_u32 (as_i32 x) = as_u32 x.
Proof.
  unfold as_u32, as_i32.
  replace ((x + 2^31) mod 2^32) with (x + 2^31 - 2^32 * ((x + 2^31) / 2^32)) by (rewrite Z.mod_eq; lia).
  replace (x + 2^31 - 2^32 * ((x + 2^31) / 2^32) - 2^31) with (x + (- ((x + 2^31) / 2^32)) * 2^32) by lia.
  apply Z.mod_add. lia.
Qed.

Lemma at_inv {A} (l : list A) i x : at_ l i = Ret x <-> nth_error l i = Some x.
Proof. unfold at_. destruct (nth_error l i); cbn; split; intros H; try easy; congruence. Qed.

Lemma at_z_inv {A} (l : list A) i x : at_z l i = Ret x <-> 0 <= i /\ nth_error l (Z.to_nat i) = Some x.
Proof.
  unfold at_z. destruct (i <? 0) eqn:E1.
  { split; [easy|]. intros (H & _). lia. }
  destruct (Z.of_nat (length l) <=? i) eqn:E2.
  - split; [easy|]. intros (_ & H).
    assert (nth_error l (Z.to_nat i) <> None) as H' by congruence. apply nth_error_Some in H'. lia.
  - rewrite at_inv. split; intros H; [split; [lia|easy]|easy].
Qed.

Lemma omapM_inv {A B} (f : A -> outcome B) l r : omapM f l = Ret r <-> Forall2 (fun a b => f a = Ret b) l r.
Proof.
  revert r; induction l as [|a l IH]; intros r; cbn [omapM].
  - split; intros H; [injection H as <-; constructor|now inv H].
  - destruct (f a) as [b|] eqn:E; cbn [obind].
    + destruct (omapM f l) as [bs|]; cbn [obind].
      * split; intros H.
        -- injection H as <-. constructor; [easy|]. now apply IH.
        -- inv H. rewrite E in H2. injection H2 as ->. apply IH in H4. injection H4 as ->. easy.
      * split; intros H; [easy|]. inv H. apply IH in H4. easy.
    + split; intros H; [easy|]. inv H. congruence.
Qed.

(** The string table. *)
Lemma s_strings_inv raw st : s_strings raw = Ret st <-> Forall valid_str st /\ map utf8 st = raw.
Proof.
  unfold s_strings. rewrite omapM_inv. revert st; induction raw as [|b raw IH]; intros st.
  - split; intros H.
    + inv H. split; [constructor|easy].
    + destruct H as (_ & H). destruct st; [constructor|easy].
  - split; intros H.
    + inv H. destruct (utf8_decode b) eqn:E; [|easy]. cbn in H2. injection H2 as <-.
      apply utf8_decode_inv in E as (E1 & E2). apply IH in H4 as (H1 & H2).
      split; [now constructor|]. cbn. congruence.
    + destruct H as (H1 & H2). destruct st as [|s st]; [easy|]. cbn in H2. injection H2 as <- H2.
      inv H1. constructor; [now rewrite utf8_decode_encode|]. apply IH. now split.
Qed.

Lemma string_at_table raw st i s : s_strings raw = Ret st -> at_z st i = Ret s -> string_at raw i s.
Proof.
  intros H1 H2. apply s_strings_inv in H1 as (H1 & <-). apply at_z_inv in H2 as (H2 & H3).
  split; [easy|]. split.
  - rewrite Forall_forall in H1. apply H1. eapply nth_error_In; eassumption.
  - now rewrite nth_error_map, H3.
Qed.

Lemma string_at_lookup raw st i s : s_strings raw = Ret st -> string_at raw i s -> at_z st i = Ret s.
Proof.
  intros H1 (H2 & H3 & H4). apply s_strings_inv in H1 as (H1 & <-). apply at_z_inv. split; [easy|].
  rewrite nth_error_map in H4. destruct (nth_error st (Z.to_nat i)) as [x|] eqn:E; [|easy].
  cbn in H4. injection H4 as H4. f_equal. apply utf8_inj; try easy.
  rewrite Forall_forall in H1. apply H1. eapply nth_error_In; eassumption.
Qed.

Lemma text_table_strings raw : text_table raw -> exists st, s_strings raw = Ret st.
Proof.
  intros H. assert (exists st, Forall valid_str st /\ map utf8 st = raw) as (st & H').
  { induction H as [|b raw (s & Hs & ->) _ (st & H1 & H2)].
    - exists []. split; [constructor|easy].
    - exists (s :: st). split; [now constructor|]. cbn. congruence. }
  exists st. now apply s_strings_inv.
Qed.

Lemma s_tag_at_inv raw st p t : s_strings raw = Ret st ->
  s_tag_at st p = Ret t <-> string_at raw (fst p) (fst t) /\ string_at raw (snd p) (snd t).
Proof.
  intros Hs. unfold s_tag_at. split.
  - intros H. destruct (at_z st (fst p)) as [k|] eqn:E1; [|easy]. cbn in H.
    destruct (at_z st (snd p)) as [v|] eqn:E2; [|easy]. cbn in H. injection H as <-.
    split; eapply string_at_table; eassumption.
  - intros (H1 & H2). rewrite (string_at_lookup _ _ _ _ Hs H1). cbn.
    rewrite (string_at_lookup _ _ _ _ Hs H2). cbn. now destruct t.
Qed.

Lemma Forall2_iff {A B} (P Q : A -> B -> Prop) l l' : (forall a b, P a b <-> Q a b) ->
  Forall2 P l l' <-> Forall2 Q l l'.
Proof.
  intros H. split; intros F; induction F; constructor; auto; now apply H.
Qed.

Lemma tags_at_inv raw st ps ts : s_strings raw = Ret st ->
  omapM (s_tag_at st) ps = Ret ts <-> tags_at raw ps ts.
Proof.
  intros Hs. rewrite omapM_inv. unfold tags_at. apply Forall2_iff. intros p t. now apply s_tag_at_inv.
Qed.

(** The key/value column. *)
Lemma take_tags_inv : forall kv ps lft, take_tags kv = Ret (ps, lft) -> kv = run ps ++ lft /\ good_run ps.
Proof.
  assert (A : forall n kv ps lft, (length kv <= n)%nat -> take_tags kv = Ret (ps, lft) ->
    kv = run ps ++ lft /\ good_run ps).
  { induction n as [|n IH]; intros [|k kv] ps lft Hn H; try easy; cbn [length] in Hn.
    cbn [take_tags] in H. destruct (k =? 0) eqn:E.
    - injection H as <- <-. apply Z.eqb_eq in E. subst k. split; [easy|constructor].
    - destruct kv as [|v kv]; [easy|].
      destruct (take_tags kv) as [[ps' lft']|] eqn:E1; [|easy]. cbn in H. injection H as <- <-.
      apply IH in E1 as (-> & H2); [|cbn [length] in Hn; lia]. split.
      + unfold run. cbn. now rewrite <- app_assoc.
      + constructor; [cbn; lia|exact H2]. }
  intros kv ps lft H. now apply (A (length kv)).
Qed.

Lemma take_tags_run ps lft : good_run ps -> take_tags (run ps ++ lft) = Ret (ps, lft).
Proof.
  induction 1 as [|[k v] ps Hk _ IH]; [easy|]. cbn [fst] in Hk. unfold run in *. cbn [flat_map app fst snd].
  cbn [take_tags]. replace (k =? 0) with false by lia.
  rewrite IH. easy.
Qed.

(** ** Dense nodes: what a successful decode means *)

Lemma compounded_snoc q l t : compounded q (l ++ [t]) = (compounded q l + t) * q.
Proof. unfold compounded. now rewrite fold_left_app. Qed.
Lemma compounded_one l : compounded 1 l = total l.
Proof.
  induction l as [|t l IH] using rev_ind; [easy|]. rewrite compounded_snoc, IH, total_app. cbn. lia.
Qed.
Lemma as_i32_mul x q : as_i32 (as_i32 x * q) = as_i32 (x * q).
Proof.
  unfold as_i32. f_equal. rewrite Z.mul_sub_distr_r.
  replace ((x + 2^31) mod 2^32 * q - 2^31 * q + 2^31) with (2^31 - 2^31 * q + (x + 2^31) mod 2^32 * q) by lia.
  rewrite <- Z.add_mod_idemp_r, Z.mul_mod_idemp_l, Z.add_mod_idemp_r by lia. f_equal. lia.
Qed.

(** The accumulators before the i-th node. *)
Record dense_inv (chk : profile) (dg : Z) (d : dense_nodes) (di : dense_info) (i : nat) (s : dense_state) : Prop := {
  iv_id : wrapped64 chk (total (firstn i (dn_id d))) (last_id s);
  iv_lat : last_lat s = total (firstn i (dn_lat d)) /\ in_i32 (last_lat s);
  iv_lon : last_lon s = total (firstn i (dn_lon d)) /\ in_i32 (last_lon s);
  iv_ts : last_timestamp s = as_i32 (compounded dg (firstn i (di_timestamp di)));
  iv_cs : wrapped64 chk (total (firstn i (di_changeset di))) (last_changeset s);
  iv_uid : wrapped32 chk (total (firstn i (di_uid di))) (last_uid s);
  iv_sid : wrapped32 chk (total (firstn i (di_user_sid di))) (last_user_sid s)
}.

(** What the i-th node's metadata and position are. *)
Record dense_core (chk : profile) (gran lato lono dg : Z) (user : Z -> outcome str) (d : dense_nodes)
    (di : dense_info) (i : nat) (m : meta) (la lo : Z) : Prop := {
  dc_id : wrapped64 chk (sum_to i (dn_id d)) (m_id m);
  dc_raw : in_i32 (sum_to i (dn_lat d)) /\ in_i32 (sum_to i (dn_lon d));
  dc_lat : dense_internal chk gran lato (sum_to i (dn_lat d)) = Ret la;
  dc_lon : dense_internal chk gran lono (sum_to i (dn_lon d)) = Ret lo;
  dc_version : exists v, nth_error (di_version di) i = Some v /\ m_version m = Some (as_u32 v);
  dc_ts : exists t, m_timestamp m = Some (EpochNumber t) /\ t = as_i32 (compounded dg (firstn (S i) (di_timestamp di)));
  dc_cs : m_changeset m = Some (as_u32 (sum_to i (di_changeset di)));
  dc_uid : m_uid m = Some (as_u32 (sum_to i (di_uid di)));
  dc_user : exists u sid, m_user m = Some u /\ wrapped32 chk (sum_to i (di_user_sid di)) sid /\ user sid = Ret u;
  dc_visible : m_deleted m = match nth_error (di_visible di) i with Some v => negb v | None => false end
}.

Lemma dense_inv0 chk dg d di kv : dense_inv chk dg d di 0 (ds0 kv).
Proof. split; cbn; try (split; [easy|]); try easy; unfold in_i32; lia. Qed.

Lemma nth_Forall {A} (P : A -> Prop) l i x : Forall P l -> nth_error l i = Some x -> P x.
Proof. intros H E. rewrite Forall_forall in H. apply H. eapply nth_error_In; eassumption. Qed.

Lemma dense_raw_inv chk col i last x : Forall in_i64 col -> in_i32 last -> last = total (firstn i col) ->
  dense_raw chk col i last = Ret x -> x = sum_to i col /\ in_i32 x.
Proof.
  intros Hc Hl El H. unfold dense_raw in H. destruct (at_ col i) as [d|] eqn:E; [|easy]. cbn [obind] in H.
  apply at_inv in E. destruct (arith_i64 chk (d + last)) as [s|] eqn:E1; [|easy]. cbn [obind] in H.
  unfold try_i32 in H. destruct (in_i32b s) eqn:E2; [|easy]. injection H as <-. apply in_i32b_iff in E2.
  split; [|easy]. unfold sum_to. rewrite (total_snoc _ _ _ E), <- El.
  apply (nth_Forall _ _ _ _ Hc) in E. clear El Hc.
  unfold arith_i64 in E1. destruct (in_i64b (d + last)) eqn:E3.
  - injection E1 as <-. lia.
  - destruct chk; [easy|]. injection E1 as <-. exfalso.
    assert (Hd : ~ in_i64 (d + last)) by (intros C; apply in_i64b_iff in C; congruence).
    unfold in_i64, in_i32, as_i64 in *.
    destruct (Z.lt_ge_cases (d + last) 0).
    + assert (Q : d + last + 2^63 + 2^64 = (d + last + 2^63) mod 2^64); [|rewrite <- Q in E2; lia].
      apply Z.mod_unique with (q := -1); lia.
    + assert (Q : d + last + 2^63 - 2^64 = (d + last + 2^63) mod 2^64); [|rewrite <- Q in E2; lia].
      apply Z.mod_unique with (q := 1); lia.
Qed.

Ltac binds H :=
  repeat match type of H with
  | obind ?e _ = Ret _ => let E := fresh "E" in destruct e eqn:E; [cbn [obind] in H|discriminate H]
  | (let '(_, _) := ?p in _) = Ret _ => destruct p
  end.

Lemma core_inv chk gran lato lono dg user d di i s d0 id la_raw lo_raw la lo m ts cs uid sid lft :
  Forall in_i64 (dn_lat d) -> Forall in_i64 (dn_lon d) ->
  dense_inv chk dg d di i s ->
  at_ (dn_id d) i = Ret d0 -> arith_i64 chk (d0 + last_id s) = Ret id ->
  dense_raw chk (dn_lat d) i (last_lat s) = Ret la_raw ->
  dense_raw chk (dn_lon d) i (last_lon s) = Ret lo_raw ->
  dense_internal chk gran lato la_raw = Ret la -> dense_internal chk gran lono lo_raw = Ret lo ->
  dense_meta chk dg user di i s id = Ret (m, (ts, cs, uid, sid)) ->
  dense_inv chk dg d di (S i) (DS id la_raw lo_raw ts cs uid sid lft) /\
  dense_core chk gran lato lono dg user d di i m la lo.
Proof.
  intros Hla Hlo [V1 (V2 & V2') (V3 & V3') V4 V5 V6 V7] E1 E2 E3 E4 E5 E6 E7.
  apply at_inv in E1.
  pose proof (arith64_wrapped _ _ _ _ _ V1 E2) as Wid. rewrite <- (total_snoc _ _ _ E1) in Wid.
  apply (dense_raw_inv chk (dn_lat d) i (last_lat s)) in E3 as (E3 & E3'); try easy.
  apply (dense_raw_inv chk (dn_lon d) i (last_lon s)) in E4 as (E4 & E4'); try easy.
  unfold dense_meta in E7. binds E7. injection E7 as <- -> -> -> ->.
  repeat match goal with E : at_ _ i = Ret _ |- _ => apply at_inv in E end.
  match goal with E : arith_i64 chk (_ + last_changeset s) = _ |- _ => rename E into Ecs end.
  match goal with E : arith_i32 chk (_ + last_uid s) = _ |- _ => rename E into Eu end.
  match goal with E : arith_i32 chk (_ + last_user_sid s) = _ |- _ => rename E into Es end.
  match goal with E : arith_i32 chk (_ + last_timestamp s) = _ |- _ => rename E into Et end.
  match goal with E : arith_i32 chk (_ * dg) = _ |- _ => rename E into Et2 end.
  apply (arith64_wrapped _ _ _ _ _ V5) in Ecs.
  apply (arith32_wrapped _ _ _ _ _ V6) in Eu.
  apply (arith32_wrapped _ _ _ _ _ V7) in Es.
  match goal with E : nth_error (di_changeset di) i = _ |- _ => rewrite <- (total_snoc _ _ _ E) in Ecs; clear E end.
  match goal with E : nth_error (di_uid di) i = _ |- _ => rewrite <- (total_snoc _ _ _ E) in Eu; clear E end.
  match goal with E : nth_error (di_user_sid di) i = _ |- _ => rewrite <- (total_snoc _ _ _ E) in Es; clear E end.
  match goal with E : nth_error (di_timestamp di) i = Some ?t |- _ => rename E into Ent; rename t into tt0 end.
  assert (Hts : ts = as_i32 (compounded dg (firstn (S i) (di_timestamp di)))).
  { rewrite (firstn_snoc _ _ _ Ent), compounded_snoc. apply arith32_cases in Et as (Et & _).
    apply arith32_cases in Et2 as (Et2 & _). rewrite Et2, Et, V4.
    rewrite !as_i32_add, as_i32_mul. f_equal. lia. }
  split.
  - split; cbn; try easy.
  - split; cbn [m_id m_version m_timestamp m_changeset m_uid m_user m_deleted]; try easy.
    + rewrite <- E3, <- E4. now split.
    + now rewrite <- E3.
    + now rewrite <- E4.
    + eexists. split; [eassumption|easy].
    + eexists. split; [easy|]. exact Hts.
    + f_equal. destruct Ecs as (-> & _). apply as_u32_i64.
    + f_equal. destruct Eu as (-> & _). apply as_u32_i32.
    + do 2 eexists. split; [reflexivity|]. split; [exact Es|]. eassumption.
    + unfold unwrap_or. destruct (nth_error (di_visible di) i) as [[|]|]; easy.
Qed.

(** The loops: string *)
Definition s_dense_node (chk : profile) (gran lato lono dg : Z) (st : list str) (d : dense_nodes)
    (di : dense_info) (runs : list (list (Z * Z))) (i : nat) (o : sobj) : Prop :=
  exists m ts la lo ps, o = SNode (SN m ts (Some (la, lo))) /\
    dense_core chk gran lato lono dg (at_z st) d di i m la lo /\
    nth_error runs i = Some ps /\ omapM (s_tag_at st) ps = Ret ts.

Lemma s_dense_loop_inv chk gran lato lono dg st d di :
  Forall in_i64 (dn_lat d) -> Forall in_i64 (dn_lon d) ->
  forall n i s os runs, dense_inv chk dg d di i s -> Forall good_run runs -> length runs = i ->
  dn_keys_vals d = column runs ++ kv_left s ->
  dense_loop (s_dense_step chk gran lato lono dg st d di) n i s = Ret os ->
  exists runs' lft, dn_keys_vals d = column (runs ++ runs') ++ lft /\ Forall good_run (runs ++ runs') /\
    length runs' = n /\ length os = n /\
    forall k o, nth_error os k = Some o ->
      s_dense_node chk gran lato lono dg st d di (runs ++ runs') (i + k) o.
Proof.
  intros Hla Hlo. induction n as [|n IH]; intros i s os runs V G L K H; cbn [dense_loop] in H.
  - injection H as <-. exists [], (kv_left s). rewrite app_nil_r. repeat split; try easy. all: now destruct k.
  - destruct (s_dense_step chk gran lato lono dg st d di i s) as [[o s']|] eqn:E; [|easy]. cbn [obind] in H.
    destruct (dense_loop _ n (S i) s') as [r|] eqn:Er; [|easy]. cbn [obind] in H. injection H as <-.
    unfold s_dense_step in E. binds E. injection E as <- <-.
    match goal with E : take_tags _ = Ret (?ps, ?lft) |- _ =>
      apply take_tags_inv in E as (Ek & Gp); rename ps into ps0; rename lft into lft0 end.
    edestruct (core_inv chk gran lato lono dg (at_z st) d di i s) with (lft := lft0)
      (1 := Hla) (2 := Hlo) (3 := V) as (V' & C); [eassumption ..|].
    edestruct IH with (runs := runs ++ [ps0]) as (runs' & lft & K' & G' & L' & Lo & D); [exact V'| | | |exact Er|].
    + apply Forall_app. split; [easy|now constructor].
    + rewrite app_length. cbn. lia.
    + rewrite K, Ek. unfold column. rewrite flat_map_app. cbn. now rewrite app_nil_r, app_assoc.
    + exists (ps0 :: runs'), lft. rewrite <- app_assoc in *. cbn [app] in *.
      split; [easy|]. split; [easy|]. split; [cbn; lia|]. split; [cbn; lia|].
      intros [|k] o' H; cbn [nth_error] in H.
      * injection H as <-. do 5 eexists. split; [reflexivity|]. rewrite Nat.add_0_r. split; [exact C|].
        split; [|eassumption]. rewrite nth_error_app2 by lia. now rewrite L, Nat.sub_diag.
      * replace (i + S k)%nat with (S i + k)%nat by lia. now apply D.
Qed.

(** The loop: Arc.  With an empty column there are no runs. *)
Definition a_dense_node (chk : profile) (gran lato lono dg : Z) (st : list (option str)) (d : dense_nodes)
    (di : dense_info) (runs : list (list (Z * Z))) (i : nat) (o : aobj) : Prop :=
  exists m ts la lo, o = ANode (AN m ts (Some (la, lo))) /\
    dense_core chk gran lato lono dg (fun i => do o <- at_z st i; unwrap o) d di i m la lo /\
    match dn_keys_vals d with
    | [] => ts = None
    | _ => exists ps l, nth_error runs i = Some ps /\ a_tags_at st ps = Ret l /\ ts = Some l
    end.

Lemma a_dense_loop_inv chk gran lato lono dg st d di :
  Forall in_i64 (dn_lat d) -> Forall in_i64 (dn_lon d) ->
  forall n i s os runs, dense_inv chk dg d di i s -> Forall good_run runs ->
  (dn_keys_vals d = [] \/ length runs = i /\ dn_keys_vals d = column runs ++ kv_left s) ->
  dense_loop (a_dense_step chk gran lato lono dg st d di) n i s = Ret os ->
  exists runs' lft, Forall good_run (runs ++ runs') /\ length os = n /\
    (dn_keys_vals d = [] \/ length runs' = n /\ dn_keys_vals d = column (runs ++ runs') ++ lft) /\
    forall k o, nth_error os k = Some o ->
      a_dense_node chk gran lato lono dg st d di (runs ++ runs') (i + k) o.
Proof.
  intros Hla Hlo. induction n as [|n IH]; intros i s os runs V G K H; cbn [dense_loop] in H.
  - injection H as <-. exists [], (kv_left s). rewrite app_nil_r. split; [easy|]. split; [easy|]. split.
    + destruct K as [K|(L & K)]; [now left|right]. easy.
    + intros [|k] o E; easy.
  - destruct (a_dense_step chk gran lato lono dg st d di i s) as [[o s']|] eqn:E; [|easy]. cbn [obind] in H.
    destruct (dense_loop _ n (S i) s') as [r|] eqn:Er; [|easy]. cbn [obind] in H. injection H as <-.
    unfold a_dense_step in E. binds E. injection E as <- <-.
    match goal with E : match dn_keys_vals d with _ => _ end = Ret (?ts, ?lft) |- _ =>
      rename E into Ek; rename ts into ts0; rename lft into lft0 end.
    edestruct (core_inv chk gran lato lono dg (fun i => do o <- at_z st i; unwrap o) d di i s) with (lft := lft0)
      (1 := Hla) (2 := Hlo) (3 := V) as (V' & C); [eassumption ..|].
    destruct (dn_keys_vals d) as [|k0 kv] eqn:Ekv.
    + injection Ek as <- <-.
      edestruct IH with (runs := runs) as (runs' & lft & G' & L' & _ & D); [exact V'|exact G|now left|exact Er|].
      exists runs', lft. split; [easy|]. split; [cbn; lia|]. split; [now left|].
      intros [|k] o' H; cbn [nth_error] in H.
      * injection H as <-. do 4 eexists. split; [reflexivity|]. rewrite Nat.add_0_r. split; [exact C|].
        now rewrite Ekv.
      * replace (i + S k)%nat with (S i + k)%nat by lia. now apply D.
    + destruct K as [K|(L & K)]; [easy|].
      destruct (take_tags (kv_left s)) as [[ps lft']|] eqn:Et; [|easy]. cbn [obind] in Ek.
      destruct (a_tags_at st ps) as [ts'|] eqn:Ea; [|easy]. cbn [obind] in Ek. injection Ek as <- <-.
      apply take_tags_inv in Et as (Et & Gp).
      edestruct IH with (runs := runs ++ [ps]) as (runs' & lft & G' & Lo & K' & D); [exact V'| | |exact Er|].
      * apply Forall_app. split; [easy|now constructor].
      * right. split; [rewrite app_length; cbn; lia|].
        rewrite K, Et. unfold column. rewrite flat_map_app. cbn. now rewrite app_nil_r, app_assoc.
      * exists (ps :: runs'), lft. rewrite <- app_assoc in *. cbn [app] in *.
        split; [easy|]. split; [cbn; lia|]. split.
        { right. destruct K' as [|(K1 & K2)]; [easy|]. split; [cbn; lia|easy]. }
        intros [|k] o' H; cbn [nth_error] in H.
        -- injection H as <-. do 4 eexists. split; [reflexivity|]. rewrite Nat.add_0_r. split; [exact C|].
           rewrite Ekv. exists ps, ts'. split; [|easy]. rewrite nth_error_app2 by lia.
           now rewrite L, Nat.sub_diag.
        -- replace (i + S k)%nat with (S i + k)%nat by lia. now apply D.
Qed.

(** The position reader takes the same steps. *)
Definition node_pos (o : sobj) : option (Z * latlon) :=
  match o with
  | SNode n => match sn_latlon n with Some l => Some (m_id (sn_meta n), l) | None => None end
  | _ => None
  end.
Definition same_pos (s s' : dense_state) : Prop :=
  last_id s = last_id s' /\ last_lat s = last_lat s' /\ last_lon s = last_lon s'.

Lemma dense_meta_id chk dg user di i s id m acc : dense_meta chk dg user di i s id = Ret (m, acc) -> m_id m = id.
Proof. unfold dense_meta. intros H. binds H. injection H as <- _. easy. Qed.

Lemma p_dense_loop chk gran lato lono dg st d di : forall n i s s' os, same_pos s s' ->
  dense_loop (s_dense_step chk gran lato lono dg st d di) n i s = Ret os ->
  dense_loop (p_dense_step chk gran lato lono d) n i s' = Ret (filter_map node_pos os).
Proof.
  induction n as [|n IH]; intros i s s' os (P1 & P2 & P3) H; cbn [dense_loop] in *.
  - injection H as <-. easy.
  - destruct (s_dense_step chk gran lato lono dg st d di i s) as [[o s1]|] eqn:E; [|easy]. cbn [obind] in H.
    destruct (dense_loop _ n (S i) s1) as [r|] eqn:Er; [|easy]. cbn [obind] in H. injection H as <-.
    unfold s_dense_step in E. binds E. injection E as <- <-. unfold p_dense_step.
    rewrite <- P1, <- P2, <- P3.
    repeat match goal with E : ?x = Ret _ |- context [obind ?x] => rewrite E; cbn [obind] end.
    match goal with E : dense_meta _ _ _ _ _ _ _ = Ret _ |- _ => apply dense_meta_id in E; rename E into Hm end.
    erewrite IH; [|split; [|split]|exact Er]; try easy. cbn. now rewrite Hm.
Qed.

(** The Arc reader takes the same steps. *)
Definition arc_of (o : sobj) : aobj :=
  match o with
  | SNode n => ANode (AN (sn_meta n) (Some (sn_tags n)) (sn_latlon n))
  | SWay w => AWay (AW (sw_meta w) (sw_tags w) (sw_nodes w))
  | SRel r => ARel (AR (sr_meta r) (sr_tags r) (sr_members r))
  end.

Lemma a_strings_some raw st : s_strings raw = Ret st -> a_strings raw = map Some st.
Proof.
  intros H. apply s_strings_inv in H as (H & <-). unfold a_strings. rewrite map_map.
  apply map_ext_in. intros s Hs. apply utf8_decode_encode. rewrite Forall_forall in H. now apply H.
Qed.

Lemma at_z_some {A} (st : list A) i x : at_z st i = Ret x -> at_z (map Some st) i = Ret (Some x).
Proof.
  intros H. apply at_z_inv in H as (H1 & H2). apply at_z_inv. split; [easy|]. now rewrite nth_error_map, H2.
Qed.
Lemma at_z_some_panic {A} (st : list A) i : at_z st i = Panic -> at_z (map Some st) i = Panic.
Proof.
  intros H. destruct (at_z (map Some st) i) as [x|] eqn:E; [|easy].
  apply at_z_inv in E as (H1 & H2). rewrite nth_error_map in H2.
  destruct (nth_error st (Z.to_nat i)) as [y|] eqn:E; [|easy].
  assert (at_z st i = Ret y) by now apply at_z_inv. congruence.
Qed.
Lemma at_z_user (st : list str) i : (do o <- at_z (map Some st) i; unwrap o) = at_z st i.
Proof.
  destruct (at_z st i) as [x|] eqn:E.
  - now rewrite (at_z_some _ _ _ E).
  - now rewrite (at_z_some_panic _ _ E).
Qed.

Lemma a_tag_some st p : a_tag_at (map Some st) p = omap Some (s_tag_at st p).
Proof.
  unfold a_tag_at, s_tag_at.
  destruct (at_z st (fst p)) as [k|] eqn:E1; [rewrite (at_z_some _ _ _ E1)|now rewrite (at_z_some_panic _ _ E1)].
  destruct (at_z st (snd p)) as [v|] eqn:E2; [rewrite (at_z_some _ _ _ E2)|now rewrite (at_z_some_panic _ _ E2)].
  easy.
Qed.

Lemma filter_map_some {A} (l : list A) : filter_map (fun o => o) (map Some l) = l.
Proof. induction l as [|a l IH]; cbn; congruence. Qed.

Lemma a_tags_some st ps : a_tags_at (map Some st) ps = omapM (s_tag_at st) ps.
Proof.
  unfold a_tags_at.
  replace (omapM (a_tag_at (map Some st)) ps) with (omap (map Some) (omapM (s_tag_at st) ps)).
  - destruct (omapM (s_tag_at st) ps) as [l|]; cbn; [|easy]. now rewrite filter_map_some.
  - induction ps as [|p ps IH]; [easy|]. cbn [omapM]. rewrite a_tag_some, <- IH.
    destruct (s_tag_at st p); cbn; [|easy]. now destruct (omapM (s_tag_at st) ps).
Qed.

Lemma dense_meta_ext chk dg u1 u2 di i s id : (forall x, u1 x = u2 x) ->
  dense_meta chk dg u1 di i s id = dense_meta chk dg u2 di i s id.
Proof.
  intros H. unfold dense_meta.
  repeat (match goal with |- obind ?e _ = obind ?e _ => destruct e; [cbn [obind]|reflexivity] end).
  rewrite H. easy.
Qed.

Lemma a_dense_loop chk gran lato lono dg st d di : dn_keys_vals d <> [] -> forall n i s os,
  dense_loop (s_dense_step chk gran lato lono dg st d di) n i s = Ret os ->
  dense_loop (a_dense_step chk gran lato lono dg (map Some st) d di) n i s = Ret (map arc_of os).
Proof.
  intros Hk. induction n as [|n IH]; intros i s os H; cbn [dense_loop] in *.
  - injection H as <-. easy.
  - destruct (s_dense_step chk gran lato lono dg st d di i s) as [[o s1]|] eqn:E; [|easy]. cbn [obind] in H.
    destruct (dense_loop _ n (S i) s1) as [r|] eqn:Er; [|easy]. cbn [obind] in H. injection H as <-.
    assert (Ea : a_dense_step chk gran lato lono dg (map Some st) d di i s = Ret (arc_of o, s1)).
    { unfold s_dense_step in E. binds E. injection E as <- <-. unfold a_dense_step.
      repeat match goal with E : ?x = Ret _ |- context [obind ?x] => rewrite E; cbn [obind] end.
      destruct (dn_keys_vals d) as [|k0 kv]; [easy|].
      repeat match goal with E : ?x = Ret _ |- context [obind ?x] => rewrite E; cbn [obind] end.
      rewrite a_tags_some.
      repeat match goal with E : ?x = Ret _ |- context [obind ?x] => rewrite E; cbn [obind] end.
      rewrite (dense_meta_ext chk dg _ (at_z st)) by (intros x; apply at_z_user).
      repeat match goal with E : ?x = Ret _ |- context [obind ?x] => rewrite E; cbn [obind] end. easy. }
    rewrite Ea. cbn [obind]. rewrite (IH _ _ _ Er). easy.
Qed.

(** ** Ways and relations *)

Lemma sum_refs_from_inv chk : forall l last pre x xs, wrapped64 chk (total pre) last ->
  sum_refs_from chk last l = Ret xs ->
  length xs = length l /\
  (nth_error xs x <> None -> exists y, nth_error xs x = Some y /\ wrapped64 chk (total (pre ++ firstn (S x) l)) y).
Proof.
  induction l as [|d l IH]; intros last pre x xs W H; cbn [sum_refs_from] in H.
  - injection H as <-. split; [easy|]. now destruct x.
  - destruct (arith_i64 chk (last + d)) as [z|] eqn:E; [|easy]. cbn [obind] in H. binds H. injection H as <-.
    pose proof (arith64_wrapped chk d (total pre) last z W) as W'. rewrite (Z.add_comm d) in W'. specialize (W' E).
    assert (W2 : wrapped64 chk (total (pre ++ [d])) z) by (rewrite total_app; cbn; now rewrite Z.add_0_r).
    split.
    + cbn. f_equal. eapply (IH z (pre ++ [d]) x); eassumption.
    + destruct x as [|x]; cbn [nth_error].
      * intros _. exists z. split; [easy|]. exact W2.
      * intros Hx. destruct (IH _ _ x _ W2 E0) as (_ & IH'). destruct (IH' Hx) as (y & H1 & H2).
        exists y. split; [easy|]. rewrite <- app_assoc in H2. exact H2.
Qed.

Lemma sum_refs_inv chk l xs : Forall in_i64 l -> sum_refs chk l = Ret xs ->
  length xs = length l /\ forall i x, nth_error xs i = Some x -> wrapped64 chk (sum_to i l) x.
Proof.
  intros Hl H. destruct l as [|d l]; cbn [sum_refs] in H.
  - injection H as <-. split; [easy|]. now intros [|i].
  - binds H. injection H as <-.
    assert (W : wrapped64 chk (total [d]) d).
    { cbn. rewrite Z.add_0_r. split; [|easy]. symmetry. apply as_i64_id. now inv Hl. }
    split.
    + cbn. f_equal. exact (proj1 (sum_refs_from_inv _ _ _ _ 0%nat _ W E)).
    + intros [|i] x Hx; cbn [nth_error] in Hx.
      * injection Hx as <-. exact W.
      * destruct (sum_refs_from_inv _ _ _ _ i _ W E) as (_ & F). rewrite Hx in F.
        destruct F as (y & F1 & F2); [easy|]. injection F1 as <-. exact F2.
Qed.

Lemma sum_refs_ok chk l xs : sums l xs -> Forall in_i64 xs -> sum_refs chk l = Ret xs.
Proof.
  assert (A : forall l pre last xs, last = total pre -> length xs = length l ->
    (forall i x, nth_error xs i = Some x -> x = total (pre ++ firstn (S i) l)) -> Forall in_i64 xs ->
    sum_refs_from chk last l = Ret xs).
  { clear. induction l as [|d l IH]; intros pre last [|x xs] E L S F; try easy; cbn [sum_refs_from].
    assert (Hx : x = last + d).
    { rewrite (S 0%nat x) by easy. rewrite total_app. cbn. lia. }
    pose proof (Forall_inv F) as Fx. apply Forall_inv_tail in F. rewrite <- Hx, arith_i64_ok by easy. cbn [obind].
    rewrite (IH (pre ++ [d]) x xs).
    - easy.
    - rewrite total_app. cbn. lia.
    - now injection L.
    - intros i y Hy. rewrite <- app_assoc. apply (S (Datatypes.S i)). easy.
    - easy. }
  intros (L & S) F. destruct l as [|d l]; destruct xs as [|x xs]; try easy; cbn [sum_refs].
  assert (x = d) by (rewrite (S 0%nat x) by easy; cbn; lia). subst x. inv F.
  rewrite (A l [d] d xs); [easy|cbn; lia|now injection L| |easy].
  intros i y Hy. apply (S (Datatypes.S i)). easy.
Qed.

Lemma member_type_inv t ty : member_type t = Ret ty <-> t = type_code ty.
Proof.
  unfold member_type. destruct (t =? 0) eqn:E0; [|destruct (t =? 1) eqn:E1; [|destruct (t =? 2) eqn:E2]].
  all: split; intros H; [try discriminate H; injection H as <-; cbn; lia|destruct ty; cbn in H; easy || lia].
Qed.

Lemma zip_members_inv {R} (role : Z -> outcome R) : forall types ids roles l,
  zip_members role types ids roles = Ret l ->
  length l = Nat.min (length types) (Nat.min (length ids) (length roles)) /\
  forall i t id r, nth_error l i = Some (t, id, r) ->
    nth_error types i = Some (type_code t) /\ nth_error ids i = Some id /\
    exists x, nth_error roles i = Some x /\ role x = Ret r.
Proof.
  induction types as [|t types IH]; intros ids roles l H; cbn [zip_members] in H.
  - injection H as <-. split; [easy|]. now intros [|i].
  - destruct ids as [|id ids]; [injection H as <-; split; [easy|now intros [|i]]|].
    destruct roles as [|r roles]; [injection H as <-; split; [easy|now intros [|i]]|].
    destruct (member_type t) as [ty|] eqn:Et; [|easy]. cbn [obind] in H. apply member_type_inv in Et.
    binds H. injection H as <-. apply IH in E0 as (L & D). split.
    + cbn [length]. rewrite L. lia.
    + intros [|i] t' id' r' H; cbn [nth_error] in *.
      * injection H as <- <- <-. split; [congruence|]. split; [easy|]. eexists. split; [reflexivity|easy].
      * now apply D.
Qed.

Lemma zip_members_ok {R} (role : Z -> outcome R) : forall types ids roles (l : list (objtype * Z * R)),
  types = map (fun m => type_code (fst (fst m))) l -> ids = map (fun m => snd (fst m)) l ->
  Forall2 (fun x r => role x = Ret r) roles (map snd l) ->
  zip_members role types ids roles = Ret l.
Proof.
  intros types ids roles l -> -> H. revert roles H. induction l as [|[[t i] r] l IH]; intros roles H.
  - easy.
  - cbn [map] in H. inv H. cbn [map fst snd zip_members].
    replace (member_type (type_code t)) with (Ret t) by (symmetry; now apply member_type_inv). cbn [obind].
    match goal with E : role _ = Ret r |- _ => rewrite E end. cbn [obind]. rewrite IH by easy. easy.
Qed.

Lemma obj_meta_inv del user o id m : obj_meta del user o id = Ret m ->
  exists ts cs uid sid name v dl, let inf := unwrap_or o info0 in
    i_timestamp inf = Some ts /\ i_changeset inf = Some cs /\ i_uid inf = Some uid /\
    i_user_sid inf = Some sid /\ i_version inf = Some v /\ user sid = Ret name /\
    del (i_visible inf) = Ret dl /\
    m = Meta id (Some (as_u32 v)) dl (Some (as_u32 cs)) (Some (EpochNumber ts)) (Some (as_u32 uid)) (Some name).
Proof.
  unfold obj_meta. cbv zeta. intros H.
  destruct (i_timestamp (unwrap_or o info0)) as [ts|] eqn:E1; [|easy]. cbn [obind unwrap] in H.
  destruct (del (i_visible (unwrap_or o info0))) as [dl|] eqn:E2; [|easy]. cbn [obind unwrap] in H.
  destruct (i_changeset (unwrap_or o info0)) as [cs|] eqn:E3; [|easy]. cbn [obind unwrap] in H.
  destruct (i_uid (unwrap_or o info0)) as [uid|] eqn:E4; [|easy]. cbn [obind unwrap] in H.
  destruct (i_user_sid (unwrap_or o info0)) as [sid|] eqn:E5; [|easy]. cbn [obind unwrap] in H.
  destruct (user sid) as [name|] eqn:E6; [|easy]. cbn [obind unwrap] in H.
  destruct (i_version (unwrap_or o info0)) as [v|] eqn:E7; [|easy]. cbn [obind unwrap] in H.
  injection H as <-. exists ts, cs, uid, sid, name, v, dl. easy.
Qed.

(** What the Arc reader makes of a message that the String reader decodes. *)
Lemma a_key_rest_even chk st keys vals : length keys = length vals -> a_key_rest chk st keys vals = Ret tt.
Proof. intros L. unfold a_key_rest. rewrite <- L. now rewrite (proj2 (nth_error_None keys (length keys))). Qed.
Lemma a_tags_of_some chk st keys vals ts : s_tags_of st keys vals = Ret ts ->
  a_tags_of chk (map Some st) keys vals = Ret ts.
Proof.
  unfold s_tags_of, assert. destruct (Nat.eqb (length keys) (length vals)) eqn:E; [|easy]. cbn [obind].
  apply Nat.eqb_eq in E. intros H. unfold a_tags_of. rewrite a_tags_some, H. cbn [obind]. now rewrite a_key_rest_even.
Qed.

Lemma zip_members_some st : forall types ids roles l, zip_members (at_z st) types ids roles = Ret l ->
  exists l', zip_members (at_z (map Some st)) types ids roles = Ret l' /\ filter_map keep_member l' = l.
Proof.
  induction types as [|t types IH]; intros ids roles l H; cbn [zip_members] in *.
  - injection H as <-. exists []. easy.
  - destruct ids as [|id ids]; [injection H as <-; exists []; easy|].
    destruct roles as [|r roles]; [injection H as <-; exists []; easy|].
    destruct (member_type t) as [ty|]; [|easy]. cbn [obind] in *.
    binds H. injection H as <-. apply IH in E0 as (l' & E1 & E2).
    rewrite (at_z_some _ _ _ E), E1. cbn [obind]. eexists. split; [reflexivity|]. cbn [filter_map keep_member]. now rewrite E2.
Qed.

(** Looking at one type more matters only if that type is unknown. *)
Definition known_types (p : prel) : Prop := Forall (fun t => 0 <= t <= 2) (pr_types p).
Lemma member_type_known t : 0 <= t <= 2 -> exists ty, member_type t = Ret ty.
Proof. intros H. assert (t = 0 \/ t = 1 \/ t = 2) as [->|[->| ->]] by lia; eexists; reflexivity. Qed.
Lemma rest_type_known rest types ids roles : Forall (fun t => 0 <= t <= 2) types -> rest_type rest types ids roles = Ret tt.
Proof.
  intros H. unfold rest_type. destruct (nth_error types _) as [t|] eqn:E; [|easy]. destruct (rest _ _ _); [|easy].
  rewrite Forall_forall in H. destruct (member_type_known t (H t (nth_error_In _ _ E))) as (ty & ->). easy.
Qed.
Lemma rest_type_even rest types ids roles : length types = length ids -> length roles = length ids -> rest_type rest types ids roles = Ret tt.
Proof. intros L L'. unfold rest_type. rewrite L', Nat.min_id, <- L. now rewrite (proj2 (nth_error_None types (length types))). Qed.

Definition flagged (o : option info) : bool := is_some (i_visible (unwrap_or o info0)).

Lemma obj_meta_some st o id m : obj_meta s_deleted (at_z st) o id = Ret m ->
  obj_meta a_deleted (fun i => do o <- at_z (map Some st) i; unwrap o) o id
  = if flagged o then Ret m else Panic.
Proof.
  intros H. apply obj_meta_inv in H as (ts & cs & uid & sid & name & v & dl & H). cbv zeta in H.
  destruct H as (E1 & E2 & E3 & E4 & E5 & E6 & E7 & ->).
  unfold obj_meta, flagged. cbv zeta. rewrite E1. cbn [obind unwrap].
  unfold a_deleted, s_deleted in *. destruct (i_visible (unwrap_or o info0)) as [b|]; [|easy].
  cbn [unwrap obind is_some unwrap_or] in *. rewrite E2, E3, E4. cbn [obind unwrap].
  rewrite at_z_user, E6, E5. cbn [obind unwrap]. injection E7 as <-. easy.
Qed.

Lemma a_way_some (chk : build) st w o : s_decode_way chk st w = Ret o ->
  a_decode_way chk (map Some st) w = if flagged (pw_info w) then Ret (arc_of o) else Panic.
Proof.
  unfold s_decode_way, a_decode_way. destruct (pw_id w) as [id|]; [|easy]. cbn [unwrap obind unwrap_or].
  intros H. binds H. injection H as <-. rewrite (a_tags_of_some chk _ _ _ _ E). cbn [obind].
  rewrite (obj_meta_some _ _ _ _ E1). now destruct (flagged (pw_info w)).
Qed.
(** The type after the members is not looked at by the Arc reader, or known. *)
Definition rest_known (chk : build) (p : prel) : bool :=
  match rest_type (a_member_rest chk) (pr_types p) (pr_memids p) (pr_roles p) with Ret _ => true | Panic => false end.
Lemma rest_type_len rest types ids ids' roles : length ids = length ids' -> rest_type rest types ids roles = rest_type rest types ids' roles.
Proof. intros L. unfold rest_type. now rewrite L. Qed.
Lemma sum_refs_len chk l ids : sum_refs chk l = Ret ids -> length ids = length l.
Proof.
  assert (A : forall l last xs, sum_refs_from chk last l = Ret xs -> length xs = length l).
  { intros k. induction k as [|d k IH]; intros last xs H; cbn [sum_refs_from] in H; [now injection H as <-|].
    binds H. injection H as <-. cbn [length]. f_equal. eapply IH. eassumption. }
  destruct l as [|d l]; cbn [sum_refs]; intros H; [now injection H as <-|]. binds H. injection H as <-. cbn [length]. f_equal. eapply A. eassumption.
Qed.
Lemma a_rel_some chk st r o : s_decode_rel chk st r = Ret o ->
  a_decode_rel chk (map Some st) r = if rest_known chk r && flagged (pr_info r) then Ret (arc_of o) else Panic.
Proof.
  unfold s_decode_rel, a_decode_rel. intros H. binds H. injection H as <-.
  rewrite (a_tags_of_some chk _ _ _ _ E). cbn [obind].
  destruct (zip_members_some _ _ _ _ _ E1) as (l' & -> & <-). cbn [obind]. unfold rest_known.
  rewrite (rest_type_len _ _ (pr_memids r) _ _ (eq_sym (sum_refs_len _ _ _ E0))).
  destruct (rest_type (a_member_rest chk) _ _ _) as [[]|]; [|reflexivity]. cbn [obind andb].
  rewrite (obj_meta_some _ _ _ _ E3). now destruct (flagged (pr_info r)).
Qed.

Lemma omapM_flag {A B C} (f : A -> outcome B) (g : A -> outcome C) (h : B -> C) (p : A -> bool) :
  forall l r, (forall a b, In a l -> f a = Ret b -> g a = if p a then Ret (h b) else Panic) ->
  omapM f l = Ret r -> omapM g l = if forallb p l then Ret (map h r) else Panic.
Proof.
  induction l as [|a l IH]; intros r H E; cbn [omapM forallb] in *.
  - injection E as <-. easy.
  - assert (H' : forall a b, In a l -> f a = Ret b -> g a = if p a then Ret (h b) else Panic) by (intros; apply H; [now right|assumption]).
    specialize (IH) with (1 := H'). binds E. injection E as <-. rewrite (H _ _ (or_introl eq_refl) E0). destruct (p a); cbn [obind andb]; [|easy].
    rewrite (IH _ eq_refl). now destruct (forallb p l).
Qed.
