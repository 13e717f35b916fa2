(** Property C102: the objects a reader returns are determined by the blocks. *)
From Coq Require Import String ZArith List Bool Lia.
From Verif Require Import Base Utf8 Timestamp Obj PbMsg SpecPbf SpecPbfRead SpecPbfAccept SpecPbfBytes PbfFacts PbfSound
  PbfRead PbfAccept PropsPbfBlock PropsPbfEdge PropsPbfWire PropsAccept WireExact PropsPbfBytes.
Import ListNotations.
Open Scope Z_scope.

Lemma as64_eq chk x y y' : as64 chk x y -> as64 chk x y' -> y = y'.
Proof. unfold as64, in_i64. intros (I & (k & E) & _) (I' & (k' & E') & _). assert (k = k') by lia. subst. lia. Qed.
Lemma as32_eq chk x y y' : as32 chk x y -> as32 chk x y' -> y = y'.
Proof. unfold as32, in_i32. intros (I & (k & E) & _) (I' & (k' & E') & _). assert (k = k') by lia. subst. lia. Qed.
Lemma asu32_eq x y y' : asu32 x y -> asu32 x y' -> y = y'.
Proof. unfold asu32, in_u32. intros (I & (k & E)) (I' & (k' & E')). assert (k = k') by lia. subst. lia. Qed.
Lemma pos_eq g o raw x y : pos_read g o raw x -> pos_read g o raw y -> x = y.
Proof. intros (_ & H) (_ & H'). eapply as32_eq; eassumption. Qed.
Lemma string_at_eq raw i s s' : string_at raw i s -> string_at raw i s' -> s = s'.
Proof. intros (_ & V & E) (_ & V' & E'). apply utf8_inj; [exact V|exact V'|congruence]. Qed.

Lemma Forall2_eq {A B} (P : A -> Prop) (R : A -> B -> Prop) l : (forall a b b', P a -> R a b -> R a b' -> b = b') -> Forall P l -> forall m m',
  Forall2 R l m -> Forall2 R l m' -> m = m'.
Proof.
  intros H F. induction F as [|a l Ha _ IH]; intros m m' F1 F2; inversion F1; subst; inversion F2; subst; [reflexivity|].
  f_equal; [eapply H; eassumption|now apply IH].
Qed.
Lemma all_true {A} (l : list A) : Forall (fun _ => True) l.
Proof. now apply Forall_forall. Qed.
Lemma tags_at_eq raw ps ts ts' : tags_at raw ps ts -> tags_at raw ps ts' -> ts = ts'.
Proof.
  apply (Forall2_eq (fun _ => True)); [|apply all_true]. intros p (k, v) (k', v') _ (H1 & H2) (H3 & H4). cbn [fst snd] in *.
  f_equal; eapply string_at_eq; eassumption.
Qed.

Lemma nth_eq {A} (l l' : list A) : length l = length l' -> (forall i x y, nth_error l i = Some x -> nth_error l' i = Some y -> x = y) -> l = l'.
Proof.
  revert l'. induction l as [|a l IH]; intros [|b l'] L H; try discriminate; [reflexivity|]. injection L as L. f_equal.
  - exact (H 0%nat a b eq_refl eq_refl).
  - apply IH; [exact L|]. intros i. exact (H (S i)).
Qed.

(** The runs of the key/value column. *)
Lemma runs_of_eq kv runs runs' : length runs = length runs' -> runs_of kv runs -> runs_of kv runs' -> runs = runs'.
Proof.
  assert (Z : forall rs, column rs = [] -> rs = []).
  { intros [|ps rs] H; [reflexivity|]. exfalso. unfold column in H. cbn [flat_map] in H. apply app_eq_nil in H as (H & _). unfold run in H.
    apply app_eq_nil in H as (_ & H). discriminate. }
  intros L (G & H) (G' & H'). destruct H as [(rest & E)|(E & N)], H' as [(rest' & E')|(E' & N')].
  - apply nth_eq; [exact L|]. intros i x y Hx Hy. eapply (runs_unique i runs runs' rest rest'); try eassumption. congruence.
  - rewrite E' in E. symmetry in E. apply app_eq_nil in E as (E & _). apply Z in E as ->. destruct runs'; [reflexivity|discriminate].
  - rewrite E in E'. symmetry in E'. apply app_eq_nil in E' as (E' & _). apply Z in E' as ->. destruct runs; [reflexivity|discriminate].
  - apply nth_eq; [exact L|]. intros i x y Hx Hy. rewrite Forall_forall in N, N'. rewrite (N x), (N' y); [reflexivity|eapply nth_error_In; eassumption..].
Qed.

Lemma meta_eq m m' : m_id m = m_id m' -> m_version m = m_version m' -> m_deleted m = m_deleted m' -> m_changeset m = m_changeset m' ->
  m_timestamp m = m_timestamp m' -> m_uid m = m_uid m' -> m_user m = m_user m' -> m = m'.
Proof. destruct m, m'. cbn. intros. now subst. Qed.

Lemma dense_read_eq chk b raw d di runs i n n' : dense_read chk b raw d di runs i n -> dense_read chk b raw d di runs i n' -> n = n'.
Proof.
  intros [R1 (la & lo & R2 & P1 & P2) (ps & R3 & T) (v & x & R4 & V1 & V2) (t & T1 & T2) (c & C1 & C2) (w & W1 & W2) (u & sid & U1 & U2 & U3) D].
  intros [Q1 (la' & lo' & Q2 & P1' & P2') (ps' & Q3 & T') (v' & x' & Q4 & V1' & V2') (t' & T1' & T2') (c' & C1' & C2') (w' & W1' & W2') (u' & sid' & U1' & U2' & U3') D'].
  rewrite R3 in Q3. injection Q3 as <-. rewrite R4 in Q4. injection Q4 as <-.
  pose proof (pos_eq _ _ _ _ _ P1 P1') as <-. pose proof (pos_eq _ _ _ _ _ P2 P2') as <-. pose proof (tags_at_eq _ _ _ _ T T') as Et.
  pose proof (asu32_eq _ _ _ V2 V2') as <-. pose proof (as32_eq _ _ _ _ T2 T2') as <-. pose proof (asu32_eq _ _ _ C2 C2') as <-.
  pose proof (asu32_eq _ _ _ W2 W2') as <-. pose proof (as32_eq _ _ _ _ U2 U2') as <-. pose proof (string_at_eq _ _ _ _ U3 U3') as <-.
  assert (sn_meta n = sn_meta n') as Em by (apply meta_eq; try congruence; eapply as64_eq; eassumption).
  destruct n, n'; cbn in *; congruence.
Qed.
Lemma dense_objs_eq chk b raw d os os' : dense_objs chk b raw d os -> dense_objs chk b raw d os' -> os = os'.
Proof.
  intros (L & di & runs & -> & Rn & Lr & H) (L' & di' & runs' & -> & Rn' & Lr' & H').
  assert (runs = runs') as <- by (eapply runs_of_eq; [congruence|eassumption..]).
  apply nth_eq; [congruence|]. intros i x y Hx Hy. apply H in Hx as (n & -> & Hx). apply H' in Hy as (n' & -> & Hy). f_equal.
  eapply dense_read_eq; eassumption.
Qed.

Lemma meta_read_eq raw o m m' : m_id m = m_id m' -> meta_read raw o m -> meta_read raw o m' -> m_deleted m = m_deleted m' -> m = m'.
Proof.
  intros E (inf & v & ts & cs & uid & sid & x & y & z & u & -> & A1 & A2 & A3 & B1 & B2 & C1 & C2 & C3 & D1 & D2 & D3 & F1 & F2 & F3 & _).
  intros (inf' & v' & ts' & cs' & uid' & sid' & x' & y' & z' & u' & I & A1' & A2' & A3' & B1' & B2' & C1' & C2' & C3' & D1' & D2' & D3' & F1' & F2' & F3' & _) Dl.
  injection I as <-. assert (v = v') as <- by congruence. assert (cs = cs') as <- by congruence. assert (uid = uid') as <- by congruence.
  assert (sid = sid') as <- by congruence.
  pose proof (asu32_eq _ _ _ A3 A3') as <-. pose proof (asu32_eq _ _ _ C3 C3') as <-. pose proof (asu32_eq _ _ _ D3 D3') as <-.
  pose proof (string_at_eq _ _ _ _ F3 F3') as <-. apply meta_eq; congruence.
Qed.
(** The visible flag decides, or both are taken for deleted. *)
Lemma deleted_eq raw o m m' : meta_read raw o m -> meta_read raw o m' -> ((forall inf, o = Some inf -> i_visible inf <> None) \/
    (m_deleted m = true \/ exists inf f, o = Some inf /\ i_visible inf = Some f) /\ (m_deleted m' = true \/ exists inf f, o = Some inf /\ i_visible inf = Some f)) ->
  m_deleted m = m_deleted m'.
Proof.
  intros (inf & v & ts & cs & uid & sid & x & y & z & u & -> & _ & _ & _ & _ & _ & _ & _ & _ & _ & _ & _ & _ & _ & _ & H).
  intros (inf' & v' & ts' & cs' & uid' & sid' & x' & y' & z' & u' & I & _ & _ & _ & _ & _ & _ & _ & _ & _ & _ & _ & _ & _ & _ & H') D.
  injection I as <-. destruct (i_visible inf) as [f|] eqn:E; [rewrite (H f eq_refl), (H' f eq_refl); reflexivity|].
  destruct D as [D|([D|(i & f & D & D1)] & [D'|(i' & f' & D' & D1')])]; [now elim (D inf eq_refl)|congruence|congruence..].
Qed.
Lemma flag_deleted o obj : flag_read o obj -> m_deleted (s_meta obj) = true \/ exists inf f, o = Some inf /\ i_visible inf = Some f.
Proof. intros (inf & -> & H). destruct (i_visible inf) as [f|] eqn:E; [right; now exists inf, f|left; now apply H]. Qed.

Lemma way_read_eq chk raw p o o' : way_read chk raw p o -> way_read chk raw p o' -> m_deleted (s_meta o) = m_deleted (s_meta o') -> o = o'.
Proof.
  intros (w & -> & I & M & T & L & N) (w' & -> & I' & M' & T' & L' & N') D. cbn [s_meta] in D. f_equal.
  assert (sw_meta w = sw_meta w') as Em by (eapply meta_read_eq; [congruence|eassumption..]). pose proof (tags_at_eq _ _ _ _ T T') as Et.
  assert (sw_nodes w = sw_nodes w') as En.
  { apply nth_eq; [congruence|]. intros i x y Hx Hy. exact (as64_eq _ _ _ _ (N i x Hx) (N' i y Hy)). }
  destruct w, w'; cbn in *; congruence.
Qed.
Lemma rel_read_eq chk raw p o o' : rel_read chk raw p o -> rel_read chk raw p o' -> m_deleted (s_meta o) = m_deleted (s_meta o') -> o = o'.
Proof.
  intros (r & -> & I & M & T & L & N) (r' & -> & I' & M' & T' & L' & N') D. cbn [s_meta] in D. f_equal.
  assert (sr_meta r = sr_meta r') as Em by (eapply meta_read_eq; [congruence|eassumption..]). pose proof (tags_at_eq _ _ _ _ T T') as Et.
  assert (sr_members r = sr_members r') as En.
  { apply nth_eq; [congruence|]. intros i x y Hx Hy. apply N in Hx as (X1 & X2 & k & X3 & X4). apply N' in Hy as (Y1 & Y2 & k' & Y3 & Y4).
    assert (k = k') as <- by congruence. pose proof (as64_eq _ _ _ _ X2 Y2) as E2. pose proof (string_at_eq _ _ _ _ X4 Y4) as E3.
    rewrite X1 in Y1. destruct x as ((t, id), role), y as ((t', id'), role'). unfold mem_type, mem_id, mem_role in *. cbn [fst snd] in *. subst.
    destruct t, t'; cbn [type_code] in Y1; try discriminate; reflexivity. }
  destruct r, r'; cbn in *; congruence.
Qed.

(** The conditions in SpecPbfBytes leave the reader no choice. *)
Theorem C102_objects_determined : forall (chk : build) b,
  (forall nodes ways rels os os', s_objs chk nodes ways rels b os -> s_objs chk nodes ways rels b os' -> os = os') /\
  (forall raw os os', pb_strings b = Some raw -> text_table raw -> a_accepted chk b -> a_objs chk b os -> a_objs chk b os' ->
     map a_view os = map a_view os') /\
  (forall os os', p_objs chk b os -> p_objs chk b os' -> os = os').
Proof.
  assert (Wf : forall chk raw p o o', way_read chk raw p o /\ flag_read (pw_info p) o -> way_read chk raw p o' /\ flag_read (pw_info p) o' -> o = o').
  { intros chk raw p o o' (H & F) (H' & F'). eapply way_read_eq; [eassumption..|]. destruct H as (w & -> & _ & M & _), H' as (w' & -> & _ & M' & _).
    apply flag_deleted in F, F'. eapply deleted_eq; [exact M|exact M'|]. right. now split. }
  assert (Rf : forall chk raw p o o', rel_read chk raw p o /\ flag_read (pr_info p) o -> rel_read chk raw p o' /\ flag_read (pr_info p) o' -> o = o').
  { intros chk raw p o o' (H & F) (H' & F'). eapply rel_read_eq; [eassumption..|]. destruct H as (w & -> & _ & M & _), H' as (w' & -> & _ & M' & _).
    apply flag_deleted in F, F'. eapply deleted_eq; [exact M|exact M'|]. right. now split. }
  intros chk b. split; [|split].
  - intros n w r os os' (raw & g & Es & Eg & H1 & H2 & H3 & H4) (raw' & g' & Es' & Eg' & H1' & H2' & H3' & H4').
    assert (raw = raw') as <- by congruence. assert (g = g') as <- by congruence.
    assert (Dn : (exists d, n = true /\ pg_dense g = Some d) \/ n = false \/ pg_dense g = None).
    { destruct n, (pg_dense g) as [d|]; eauto. }
    destruct Dn as [(d & -> & Ed)|Dn]; [exact (dense_objs_eq _ _ _ _ _ _ (H1 d eq_refl Ed) (H1' d eq_refl Ed))|].
    assert (Dw : w = true /\ pg_ways g <> [] \/ w = false \/ pg_ways g = []).
    { destruct w, (pg_ways g); auto. left. split; [reflexivity|discriminate]. }
    destruct Dw as [(-> & Dw)|Dw].
    { eapply (Forall2_eq (fun _ => True)); [|apply all_true|exact (H2 Dn eq_refl Dw)|exact (H2' Dn eq_refl Dw)]. intros p o o' _. apply Wf. }
    destruct r.
    { eapply (Forall2_eq (fun _ => True)); [|apply all_true|exact (H3 Dn Dw eq_refl)|exact (H3' Dn Dw eq_refl)]. intros p o o' _. apply Rf. }
    rewrite H4, H4' by easy. reflexivity.
  - intros raw os os' Es Tx (raw1 & E1 & Ac) (raw2 & E2 & H) (raw3 & E3 & H').
    assert (raw1 = raw) as -> by congruence. assert (raw2 = raw) as -> by congruence. assert (raw3 = raw) as -> by congruence.
    destruct (H Tx) as (ls & -> & F), (H' Tx) as (ls' & -> & F'). f_equal.
    eapply (Forall2_eq (a_group_accepted chk b raw)); [|exact Ac|exact F|exact F'].
    intros g l l' (_ & _ & _ & Aw & Ar) (G1 & G2 & G3) (G1' & G2' & G3').
    destruct (pg_dense g) as [d|]; [exact (dense_objs_eq _ _ _ _ _ _ (G1 d eq_refl) (G1' d eq_refl))|].
    destruct (pg_ways g) as [|p ps].
    + eapply (Forall2_eq (a_rel_accepted chk raw)); [|exact (Ar eq_refl eq_refl)|exact (G3 eq_refl eq_refl)|exact (G3' eq_refl eq_refl)].
      intros p o o' (_ & _ & _ & _ & Hf) R R'. eapply rel_read_eq; [exact R|exact R'|]. destruct R as (x & -> & _ & M & _), R' as (x' & -> & _ & M' & _).
      eapply deleted_eq; [exact M|exact M'|]. left. intros inf Ei. unfold has_flag in Hf. destruct Hf as (i & Hi & Hf). congruence.
    + eapply (Forall2_eq (a_way_accepted chk raw)); [|apply Aw; easy|apply G2; easy|apply G2'; easy].
      intros q o o' (_ & _ & _ & Hf) R R'. eapply way_read_eq; [exact R|exact R'|]. destruct R as (x & -> & _ & M & _), R' as (x' & -> & _ & M' & _).
      eapply deleted_eq; [exact M|exact M'|]. left. intros inf Ei. unfold has_flag in Hf. destruct Hf as (i & Hi & Hf). congruence.
  - intros os os' (ls & -> & F) (ls' & -> & F'). f_equal. eapply (Forall2_eq (fun _ => True)); [|apply all_true|exact F|exact F'].
    intros g l l' _ (H1 & H2) (H1' & H2').
    assert (D : (pg_ways g <> [] \/ pg_rels g <> []) \/ (pg_ways g = [] /\ pg_rels g = [])).
    { destruct (pg_ways g), (pg_rels g); auto; left; [right|left|left]; discriminate. }
    destruct D as [D|(D1 & D2)]; [rewrite H1, H1' by exact D; reflexivity|].
    destruct (H2 D1 D2) as (d & Ed & L & P), (H2' D1 D2) as (d' & Ed' & L' & P'). assert (d = d') as <- by congruence.
    apply nth_eq; [exact (eq_trans L (eq_sym L'))|]. intros i (id, (la, lo)) (id', (la', lo')) Hx Hy. apply P in Hx as (X1 & X2 & X3). apply P' in Hy as (Y1 & Y2 & Y3).
    rewrite (as64_eq _ _ _ _ X1 Y1), (pos_eq _ _ _ _ _ X2 Y2), (pos_eq _ _ _ _ _ X3 Y3). reflexivity.
Qed.
Print Assumptions C102_objects_determined.

Example C102_determined_example : exists os,
  s_objs true true true true odd_block [odd_obj] /\ text_table [[]; [117]] /\ a_accepted (plain true) odd_block /\
  a_objs true odd_block os /\ map a_view os = [odd_obj] /\ p_objs true odd_block [].
Proof.
  assert (P : parse_block strict odd_block_bytes = Some odd_block) by (vm_compute; reflexivity).
  assert (A : exists os, a_decode_block (plain true) odd_block = Ret os) by (eexists; vm_compute; reflexivity). destruct A as (os & A).
  exists os. split; [eapply (s_block_objs (plain true)); [exact P|vm_compute; reflexivity]|].
  split; [apply s_strings_succ; eexists; vm_compute; reflexivity|]. split.
  { apply (C101_arc strict (plain true) odd_block_bytes odd_block P). now exists os. }
  split; [eapply (a_block_objs (plain true)); [exact P|exact A]|]. split; [vm_compute in A; injection A as <-; reflexivity|].
  eapply p_block_objs; [exact P|]. vm_compute. reflexivity.
Qed.
