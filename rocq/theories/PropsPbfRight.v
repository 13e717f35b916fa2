(** C43: exactly which blocks and files the PBF readers get right. *)
From Coq Require Import String ZArith List Bool Lia.
From Coq Require Import ZifyBool ZifyNat.
From Verif Require Import Base Ints Utf8 Timestamp Obj SpecObj PbWire PbMsg PbMsgFacts PbfRead SpecPbf SpecPbfRead
  SpecPbfAccept SpecXmlRead SpecIter PbfFacts PbfExact PbfEncode PbRange PbfSound PbfFrame PbfAccept PropsPbfFile PropsPbfBlock
  PropsPbfEdge PropsPbfText PropsPbf PropsExact3 PropsAccept PropsPbfUnique.
Import ListNotations.
Open Scope Z_scope.

(** ** Specification

    A block means the objects [ls], group by group, in the sense of the format
    (SpecPbf).  What must hold for a reader to find them: *)

(** The position survives the cutting of granularity and offset to multiples of 100
    nanodegrees, and nothing overflows that is checked. *)
Definition pos_right (chk : bool) (gran off raw x : Z) : Prop :=
  pos_accepted chk gran off raw /\ pos_read gran off raw x.

(** A dense node: its position, its time (which the reader compounds), a user id that
    is not the largest one, and an index of the user name that fits 32 bits. *)
Record node_right (chk : bool) (b : pblock) (raw : string_table) (d : dense_nodes) (di : dense_info) (i : nat) (n : snode)
  : Prop := {
  nr_pos : forall la lo, sn_latlon n = Some (la, lo) ->
    pos_right chk (gran_of b) (lat_off_of b) (sum_to i (dn_lat d)) la /\
    pos_right chk (gran_of b) (lon_off_of b) (sum_to i (dn_lon d)) lo;
  nr_time : forall t, m_timestamp (sn_meta n) = Some (EpochNumber t) ->
    as32 false (compounded (Z.quot (date_gran_of b) 1000) (firstn (S i) (di_timestamp di))) t;
  nr_uid : forall u, m_uid (sn_meta n) = Some u -> u <> 2^31 - 1 /\ (chk = true -> u < 2^31);
  nr_user : forall u, m_user (sn_meta n) = Some u ->
    exists sid, as32 chk (sum_to i (di_user_sid di)) sid /\ string_at raw sid u }.

(** A way or relation: it has the visible flag, and its time is the raw value. *)
Definition meta_right (inf : option info) (o : sobj) : Prop :=
  flag_of inf <> None /\
  forall i t, inf = Some i -> m_timestamp (s_meta o) = Some (EpochNumber t) -> i_timestamp i = Some t.

Definition group_right (chk : bool) (b : pblock) (raw : string_table) (g : pgroup) (l : list sobj) : Prop :=
  match pg_dense g with
  | Some d => forall di, dn_info d = Some di ->
      times_accepted chk (Z.quot (date_gran_of b) 1000) (length l) (di_timestamp di) /\
      forall i n, nth_error l i = Some (SNode n) -> node_right chk b raw d di i n
  | None => Forall2 meta_right (infos_of g) l
  end.

(** ** Proof *)

Lemma as64_same chk x : in_i64 x -> as64 chk x x.
Proof. intros H. split; [exact H|]. split; [exists 0; lia|easy]. Qed.
Lemma asu32_same x : in_u32 x -> asu32 x x.
Proof. intros H. split; [exact H|]. exists 0. lia. Qed.
Lemma string_entry raw i s : string_at raw i s -> entry raw i.
Proof.
  intros (H & _ & E). assert (Z.to_nat i < length raw)%nat by (apply nth_error_Some; congruence). unfold entry. lia.
Qed.
Lemma tags_entries raw ps ts : tags_at raw ps ts -> Forall (fun p => entry raw (fst p) /\ entry raw (snd p)) ps.
Proof. induction 1 as [|p t ps ts (H1 & H2) _ IH]; constructor; [|exact IH]. split; eapply string_entry; eassumption. Qed.
Lemma combine_entries raw : forall ks vs ts, length ks = length vs -> tags_at raw (combine ks vs) ts ->
  Forall (entry raw) ks /\ Forall (entry raw) vs.
Proof.
  intros ks vs ts L H. apply tags_entries in H. revert vs L H. induction ks as [|k ks IH]; intros [|v vs] L H; try discriminate; [split; constructor|].
  cbn [combine] in H. inversion H as [|? ? (H1 & H2) H3]; subst. injection L as L. destruct (IH vs L H3). split; constructor; assumption.
Qed.
Lemma nth_beyond {A} (l : list A) n : (length l <= n)%nat -> nth_error l n = None.
Proof. apply nth_error_None. Qed.
Lemma Forall_firstn' {A} (P : A -> Prop) n l : Forall P l -> Forall P (firstn n l).
Proof. intros H. revert n. induction H; intros [|n]; constructor; auto. Qed.

(** The parts of ways and relations. *)
Lemma pairs_ok (chk : build) raw ks vs ts : length ks = length vs -> tags_at raw (combine ks vs) ts ->
  s_pairs_accepted raw ks vs /\ a_pairs_accepted chk raw ks vs.
Proof.
  intros L T. destruct (combine_entries _ _ _ _ L T) as (H1 & H2). split; [now split|].
  split; [now apply Forall_firstn'|]. split; [now apply Forall_firstn'|]. intros k E. rewrite nth_beyond in E by lia. discriminate.
Qed.
Lemma refs_ok chk deltas l : SpecPbf.sums deltas l -> Forall in_i64 l -> refs_accepted chk deltas.
Proof.
  intros (L & H) F i Hi _. assert (i < length l)%nat as Hi' by lia. apply nth_error_Some in Hi'.
  destruct (nth_error l i) as [x|] eqn:E; [|easy]. rewrite <- (H i x E). rewrite Forall_forall in F. apply F. eapply nth_error_In; eassumption.
Qed.
Lemma refs_read chk deltas l : SpecPbf.sums deltas l -> Forall in_i64 l -> forall i x, nth_error l i = Some x -> as64 chk (sum_to i deltas) x.
Proof.
  intros (_ & H) F i x E. rewrite <- (H i x E). apply as64_same. rewrite Forall_forall in F. apply F. eapply nth_error_In; eassumption.
Qed.

Lemma info_facts b raw inf o : info_is b raw inf (s_meta o) -> in_range o -> meta_right inf o ->
  meta_read raw inf (s_meta o) /\ info_accepted raw inf /\ has_flag inf.
Proof.
  intros (i & ts & u & sid & -> & V & Vn & T & (s & Es & _) & C & Cn & U & Un & S & Us & St & D) (_ & Rv & Rc & Ru & _) (Fl & Tm).
  cbn [flag_of] in Fl. specialize (Tm i s eq_refl Es). assert (ts = s) as -> by congruence.
  split; [|split].
  - unfold meta_read. destruct (m_version (s_meta o)) as [v|]; [|easy]. destruct (m_changeset (s_meta o)) as [c|]; [|easy].
    destruct (m_uid (s_meta o)) as [w|]; [|easy]. cbn [opt_prop] in *.
    exists i, v, s, c, w, sid, v, c, w, u.
    repeat match goal with |- _ /\ _ => split end; try reflexivity; try assumption; try (now apply asu32_same).
    intros f Ef. now rewrite Ef in D.
  - exists i, sid. repeat match goal with |- _ /\ _ => split end; try reflexivity; try assumption; try congruence. now exists u.
  - exists i. now split.
Qed.

Lemma way_facts (chk : build) b raw p w : way_is b raw p w -> in_range (SWay w) -> meta_right (pw_info p) (SWay w) ->
  way_read chk raw p (SWay w) /\ way_accepted chk raw p /\ a_way_accepted chk raw p.
Proof.
  intros (I & Inf & L & T & S) R M. destruct (info_facts b raw (pw_info p) (SWay w) Inf R M) as (F1 & F2 & F3).
  destruct R as (_ & _ & _ & _ & Rn). destruct (pairs_ok chk raw _ _ _ L T) as (P1 & P2).
  pose proof (refs_ok chk _ _ S Rn) as P3. split; [|split].
  - exists w. repeat match goal with |- _ /\ _ => split end; try assumption; try reflexivity; [exact (proj1 S)|].
    exact (refs_read chk _ _ S Rn).
  - exact (conj P1 (conj P3 F2)).
  - exact (conj P2 (conj P3 (conj F2 F3))).
Qed.

Lemma rel_facts (chk : build) b raw p r : rel_is b raw p r -> in_range (SRel r) -> meta_right (pr_info p) (SRel r) ->
  rel_read chk raw p (SRel r) /\ rel_accepted chk raw p /\ a_rel_accepted chk raw p.
Proof.
  intros (I & Inf & L & T & Ty & S & Ro) R M. destruct (info_facts b raw (pr_info p) (SRel r) Inf R M) as (F1 & F2 & F3).
  destruct R as (_ & _ & _ & _ & Rn). destruct (pairs_ok chk raw _ _ _ L T) as (P1 & P2).
  assert (Rm : Forall in_i64 (map mem_id (sr_members r))) by (apply Forall_map_iff; exact Rn).
  pose proof (refs_ok chk _ _ S Rm) as P3.
  assert (L1 : length (pr_types p) = length (sr_members r)) by (rewrite Ty; apply map_length).
  assert (L2 : length (pr_memids p) = length (sr_members r)) by (rewrite <- (proj1 S); apply map_length).
  assert (L3 : length (pr_roles p) = length (sr_members r)) by (rewrite (Forall2_len _ _ _ Ro); apply map_length).
  assert (P4 : forall rest, members_accepted rest raw (pr_types p) (pr_memids p) (pr_roles p)).
  { intros rest. unfold members_accepted. cbv zeta. split; [|split].
    - apply Forall_firstn'. rewrite Ty. apply Forall_map_iff, Forall_forall. intros m _. destruct (mem_type m); cbn; lia.
    - apply Forall_firstn'. clear -Ro. induction Ro; constructor; [eapply string_entry; eassumption|assumption].
    - intros t E. rewrite nth_beyond in E by lia. discriminate. }
  split; [|split].
  - exists r. repeat match goal with |- _ /\ _ => split end; try assumption; try reflexivity; [lia|].
    intros i m Hm. split; [rewrite Ty, nth_error_map, Hm; reflexivity|]. split.
    + apply (refs_read chk _ _ S Rm). now rewrite nth_error_map, Hm.
    + assert (i < length (pr_roles p))%nat as Hi by (rewrite L3; apply nth_error_Some; congruence). apply nth_error_Some in Hi.
      destruct (nth_error (pr_roles p) i) as [x|] eqn:E; [|easy]. exists x. split; [reflexivity|].
      destruct (Forall2_nth _ _ _ _ _ Ro E) as (role & E' & Hx). rewrite nth_error_map, Hm in E'. now injection E' as <-.
  - exact (conj P1 (conj P3 (conj (P4 _) F2))).
  - exact (conj P2 (conj P3 (conj (P4 _) (conj F2 F3)))).
Qed.

(** Dense nodes. *)
Lemma uid_wrap chk u : in_u32 u -> u <> 2^31 - 1 -> (chk = true -> u < 2^31) -> exists w, as32 chk u w /\ w <> 2^31 - 1.
Proof.
  unfold in_u32, as32, in_i32. intros H N C. destruct (Z.lt_ge_cases u (2^31)).
  - exists u. split; [|lia]. split; [lia|]. split; [exists 0; lia|easy].
  - exists (u - 2^32). split; [|lia]. split; [lia|]. split; [exists (-1); lia|]. intros E. specialize (C E). lia.
Qed.

Lemma dense_facts (chk : bool) b raw d di runs i n : dense_node_is b raw d di runs i n -> in_range (SNode n) ->
  node_right chk b raw d di i n ->
  dense_read chk b raw d di runs i n /\
  fits64 chk (sum_to i (dn_id d)) /\
  pos_accepted chk (gran_of b) (lat_off_of b) (sum_to i (dn_lat d)) /\
  pos_accepted chk (gran_of b) (lon_off_of b) (sum_to i (dn_lon d)) /\
  fits64 chk (sum_to i (di_changeset di)) /\
  (exists u, as32 chk (sum_to i (di_uid di)) u /\ u <> 2^31 - 1) /\
  (exists sid, as32 chk (sum_to i (di_user_sid di)) sid /\ text_at raw sid) /\
  exists ps, nth_error runs i = Some ps /\ Forall (fun p => entry raw (fst p) /\ entry raw (snd p)) ps.
Proof.
  intros [I (la & lo & El & _ & _) (ps & Ep & Tp) (v & Ev & Evm) (s & Es & _) C U (un & Eu & _) D] (Ri & Rv & Rc & Ru & _) [P T Ud Us].
  cbn [s_meta] in *. destruct (P la lo El) as ((A1 & P1) & (A2 & P2)). rewrite Evm in Rv. rewrite C in Rc. rewrite U in Ru. cbn [opt_prop] in *.
  destruct (Us un Eu) as (sid & S1 & S2). split; [constructor|].
  - rewrite I in *. now apply as64_same.
  - exists la, lo. now split.
  - now exists ps.
  - exists v, v. split; [exact Ev|]. split; [exact Evm|]. now apply asu32_same.
  - exists s. split; [exact Es|]. now apply T.
  - eexists. split; [exact C|]. now apply asu32_same.
  - eexists. split; [exact U|]. now apply asu32_same.
  - exists un, sid. now split.
  - exact D.
  - repeat match goal with |- _ /\ _ => split end.
    + intros _. now rewrite <- I.
    + exact A1.
    + exact A2.
    + intros _. unfold in_u32, in_i64 in *. lia.
    + destruct (Ud _ U). now apply uid_wrap.
    + exists sid. split; [exact S1|]. now exists un.
    + exists ps. split; [exact Ep|]. eapply tags_entries; exact Tp.
Qed.

Lemma nth_some {A} (l : list A) i : (i < length l)%nat -> exists x, nth_error l i = Some x.
Proof. intros H. apply nth_error_Some in H. destruct (nth_error l i) as [x|]; [now exists x|easy]. Qed.

Lemma dense_group_facts (chk : bool) b raw d ns : dense_is b raw d ns -> Forall in_range (map SNode ns) ->
  group_right chk b raw (PGroup [] (Some d) [] [] []) (map SNode ns) ->
  dense_objs chk b raw d (map SNode ns) /\ dense_accepted chk b raw d /\ tags_accepted raw (length (dn_id d)) (dn_keys_vals d).
Proof.
  intros (di & runs & Ei & Ek & Gr & L1 & L2 & L3 & L4 & L5 & L6 & L7 & L8 & L9 & _ & N) R G.
  unfold group_right in G. cbn [pg_dense] in G. destruct (G di Ei) as (Gt & Gn). rewrite map_length in Gt.
  assert (F : forall i n, nth_error ns i = Some n -> _) by (intros i n E; refine (dense_facts chk b raw d di runs i n (N i n E) _ (Gn i n _));
    [rewrite Forall_forall in R; apply R, in_map; eapply nth_error_In; exact E|now rewrite nth_error_map, E]).
  split; [|split].
  - split; [now rewrite map_length|]. exists di, runs. rewrite Ei. split; [reflexivity|]. split; [|split].
    + split; [exact Gr|]. left. exists []. now rewrite app_nil_r.
    + now rewrite map_length.
    + intros i o E. rewrite nth_error_map in E. destruct (nth_error ns i) as [n|] eqn:En; [|discriminate]. injection E as <-.
      exists n. split; [reflexivity|]. now apply F.
  - split.
    + split; [lia|]. split; [lia|]. intros i Hi. destruct (nth_some ns i ltac:(lia)) as (n & E). destruct (F i n E) as (_ & A & B & C & _). now split.
    + right. exists di. split; [exact Ei|]. rewrite L1.
      unfold columns_accepted. split; [lia|]. split; [lia|]. split; [lia|]. split; [lia|]. split; [lia|]. split; [exact Gt|].
      intros i Hi. destruct (nth_some ns i ltac:(lia)) as (n & E). destruct (F i n E) as (_ & _ & _ & _ & A & B & C & _). now split.
  - exists runs, []. rewrite app_nil_r. split; [exact Ek|]. split; [lia|]. apply Forall_forall. intros ps Hp. split; [rewrite Forall_forall in Gr; now apply Gr|].
    destruct (In_nth_error _ _ Hp) as (i & Ei'). assert (i < length runs)%nat as Hi by (apply nth_error_Some; congruence).
    destruct (nth_some ns i ltac:(lia)) as (n & E). destruct (F i n E) as (_ & _ & _ & _ & _ & _ & _ & ps' & E' & A). congruence.
Qed.

Lemma Forall2_map_both {A B C} (R : B -> C -> Prop) (f : A -> B) l m : Forall2 R (map f l) m -> Forall2 (fun a c => R (f a) c) l m.
Proof. revert m. induction l as [|a l IH]; intros m H; inversion H; subst; constructor; auto. Qed.
Lemma Forall2_map_2 {A B C} (R : A -> C -> Prop) (f : B -> C) l m : Forall2 R l (map f m) -> Forall2 (fun a b => R a (f b)) l m.
Proof. revert m. induction l as [|a l IH]; intros [|b m] H; inversion H; subst; constructor; auto. Qed.
Lemma Forall2_and3 {A B} (P Q : A -> B -> Prop) (T : B -> Prop) l m : Forall2 P l m -> Forall2 Q l m -> Forall T m ->
  Forall2 (fun a b => P a b /\ Q a b /\ T b) l m.
Proof. intros H. induction H; intros H1 H2; inversion H1; inversion H2; subst; constructor; auto. Qed.
Lemma Forall2_Forall_l {A B} (P : A -> Prop) (R : A -> B -> Prop) l m : (forall a b, R a b -> P a) -> Forall2 R l m -> Forall P l.
Proof. intros H. induction 1; constructor; eauto. Qed.

(** A group that is right is accepted, and its objects are what it is read as. *)
Lemma right_facts (chk : build) b raw g l : group_is b raw g l -> text_table raw -> Forall in_range l -> group_right chk b raw g l ->
  group_read chk b raw g l /\ s_group_accepted chk true true true b raw g /\ a_group_accepted chk b raw g.
Proof.
  intros G Tx R H. inversion G as [d ns Hd|ps ws Hn Hw|ps rs Hn Hr]; subst.
  - destruct (dense_group_facts chk b raw d ns Hd R H) as (A & B & C). split; [|split].
    + split; [|split]; [intros d' E; injection E as <-; exact A|discriminate..].
    + split; [easy|]. split; [|split]; [intros d' _ E; injection E as <-; exact (conj Tx (conj B C))|intros [X|X]; discriminate..].
    + split; [easy|]. split; [discriminate|]. split; [|split]; [intros d' E; injection E as <-; split; [exact B|now right]|discriminate..].
  - unfold group_right in H. cbn [pg_dense] in H. unfold infos_of in H. cbn [pg_ways] in H.
    assert (F : Forall2 (fun p w => way_read chk raw p (SWay w) /\ way_accepted chk raw p /\ a_way_accepted chk raw p) ps ws).
    { destruct ps as [|p ps]; [easy|]. apply Forall2_map_both, Forall2_map_2 in H. rewrite Forall_map in R.
      eapply Forall2_mono; [|exact (Forall2_and3 _ _ _ _ _ Hw H R)]. intros p0 w (X & Y & Z). now apply (way_facts chk b). }
    split; [|split].
    + split; [discriminate|]. split; [|intros _ E; contradiction]. intros _ _. cbn [pg_ways]. clear -F. induction F as [|p w ps ws (X & _) _ IH]; constructor; auto.
    + split; [easy|]. split; [discriminate|]. cbn [pg_ways]. split; [|intros _ [X|X]; [discriminate|contradiction]].
      intros _ _ _. split; [exact Tx|]. eapply Forall2_Forall_l; [|exact F]. intros p w (_ & X & _). exact X.
    + split; [easy|]. cbn [pg_ways]. split; [intros _ E; contradiction|]. split; [discriminate|]. split; [|intros _ E; contradiction].
      intros _ _. eapply Forall2_Forall_l; [|exact F]. intros p w (_ & _ & X). exact X.
  - unfold group_right in H. cbn [pg_dense] in H. unfold infos_of in H. cbn [pg_ways pg_rels] in H.
    assert (F : Forall2 (fun p w => rel_read chk raw p (SRel w) /\ rel_accepted chk raw p /\ a_rel_accepted chk raw p) ps rs).
    { apply Forall2_map_both, Forall2_map_2 in H. rewrite Forall_map in R.
      eapply Forall2_mono; [|exact (Forall2_and3 _ _ _ _ _ Hr H R)]. intros p0 w (X & Y & Z). now apply (rel_facts chk b). }
    split; [|split].
    + split; [discriminate|]. cbn [pg_ways pg_rels]. split; [easy|]. intros _ _. clear -F. induction F as [|p w ps ws (X & _) _ IH]; constructor; auto.
    + split; [easy|]. split; [discriminate|]. cbn [pg_ways pg_rels]. split; [easy|].
      intros _ _ _ _. split; [exact Tx|]. eapply Forall2_Forall_l; [|exact F]. intros p w (_ & X & _). exact X.
    + split; [easy|]. cbn [pg_ways pg_rels]. split; [easy|]. split; [discriminate|]. split; [easy|].
      intros _ _. eapply Forall2_Forall_l; [|exact F]. intros p w (_ & _ & X). exact X.
Qed.

(** The other way round. *)
Lemma uid_facts chk u w : in_u32 u -> as32 chk u w -> w <> 2^31 - 1 -> u <> 2^31 - 1 /\ (chk = true -> u < 2^31).
Proof.
  unfold in_u32, as32, in_i32. intros H (W & (k & E) & C) N. split; [lia|]. intros K. specialize (C K). lia.
Qed.

Lemma dense_right (chk : bool) b raw d ns : dense_is b raw d ns -> Forall in_range (map SNode ns) ->
  dense_objs chk b raw d (map SNode ns) -> dense_accepted chk b raw d ->
  group_right chk b raw (PGroup [] (Some d) [] [] []) (map SNode ns).
Proof.
  intros (di & runs & Ei & Ek & Gr & L1 & L2 & L3 & L4 & L5 & L6 & L7 & L8 & L9 & _ & N) R (_ & di' & runs' & Ed & _ & _ & Dr) (Pl & Me).
  rewrite Ei in Ed. subst di'. unfold group_right. cbn [pg_dense]. intros di' Ei'. assert (di' = di) as -> by congruence. rewrite map_length. clear Ei'.
  destruct Me as [Me|(di' & Ei' & Me)].
  { rewrite Me in L1. destruct ns as [|n ns]; [|discriminate]. split; [|intros [|i] n E; discriminate].
    intros _. destruct (di_timestamp di); [|discriminate]. exists []. split; [constructor|]. intros i t Hi. cbn [length] in Hi. lia. }
  assert (di' = di) as -> by congruence. destruct Me as (_ & _ & _ & _ & _ & Ct & Cm). rewrite L1 in *. split; [exact Ct|].
  intros i n0 E. destruct (Dr i _ E) as (n & En & D). injection En as ->. rewrite nth_error_map in E.
  destruct (nth_error ns i) as [n'|] eqn:En; [|discriminate]. injection E as ->.
  assert (Hi : (i < length ns)%nat) by (apply nth_error_Some; congruence). destruct (Cm i Hi) as (_ & (w & W1 & W2) & _).
  destruct Pl as (_ & _ & Pl). rewrite L1 in Pl. destruct (Pl i Hi) as (_ & P1 & P2).
  assert (Rn : in_range (SNode n)) by (rewrite Forall_forall in R; apply R, in_map; eapply nth_error_In; exact En).
  destruct Rn as (_ & _ & _ & Ru & _). cbn [s_meta] in Ru. destruct D as [_ (la & lo & El & Q1 & Q2) _ _ (t & T1 & T2) _ _ (u & sid & U1 & U2) _].
  pose proof (dni_uid _ _ _ _ _ _ _ (N i n En)) as U. constructor.
  - intros la' lo' El'. assert (la' = la /\ lo' = lo) as (-> & ->) by (split; congruence). now split; split.
  - intros t' T'. assert (t' = t) as -> by congruence. exact T2.
  - intros u' U'. rewrite U' in Ru. cbn [opt_prop] in Ru. rewrite U in U'. injection U' as <-. now apply (uid_facts chk _ w).
  - intros u' U'. assert (u' = u) as -> by congruence. now exists sid.
Qed.

Lemma info_right raw inf o : flag_of inf <> None -> meta_read raw inf (s_meta o) -> meta_right inf o.
Proof.
  intros F (i & v & ts & cs & uid & sid & x & y & z & u & E & A1 & A2 & A3 & B1 & B2 & _). split; [exact F|]. intros i' t Ei Et.
  congruence.
Qed.

Lemma read_right (chk : bool) b raw g l : group_is b raw g l -> Forall in_range l -> group_read chk b raw g l ->
  (forall d, pg_dense g = Some d -> dense_accepted chk b raw d) ->
  (pg_dense g = None -> Forall (fun inf => flag_of inf <> None) (infos_of g)) -> group_right chk b raw g l.
Proof.
  intros G R (G1 & G2 & G3) D F. inversion G as [d ns Hd|ps ws Hn Hw|ps rs Hn Hr]; subst; cbn [pg_dense pg_ways pg_rels] in *.
  - apply dense_right; auto.
  - specialize (G2 eq_refl Hn). specialize (F eq_refl). unfold group_right. cbn [pg_dense]. unfold infos_of in *. cbn [pg_ways] in *.
    destruct ps as [|p0 ps0]; [easy|]. remember (p0 :: ps0) as ps. clear -F G2. revert F. induction G2 as [|p o ps os (w & -> & _ & M & _) _ IH]; intros F; cbn [map] in *; [constructor|].
    inversion F; subst. constructor; [|now apply IH]. eapply info_right; [assumption|exact M].
  - specialize (G3 eq_refl eq_refl). specialize (F eq_refl). unfold group_right. cbn [pg_dense]. unfold infos_of in *. cbn [pg_ways pg_rels] in *.
    clear -F G3. revert F. induction G3 as [|p o ps os (w & -> & _ & M & _) _ IH]; intros F; cbn [map] in *; [constructor|].
    inversion F; subst. constructor; [|now apply IH]. eapply info_right; [assumption|exact M].
Qed.

Lemma flag_same raw inf m m' : flag_of inf <> None -> meta_read raw inf m -> meta_read raw inf m' -> m_deleted m = m_deleted m'.
Proof.
  intros F H H'. eapply deleted_eq; [exact H|exact H'|]. left. intros i E. now rewrite E in F.
Qed.
Lemma reads_same {A} (inf : A -> option info) (R : A -> sobj -> Prop) raw : (forall p o, R p o -> meta_read raw (inf p) (s_meta o)) ->
  (forall p o o', R p o -> R p o' -> m_deleted (s_meta o) = m_deleted (s_meta o') -> o = o') ->
  forall ps l l', Forall (fun i => flag_of i <> None) (map inf ps) -> Forall2 R ps l -> Forall2 R ps l' -> l = l'.
Proof.
  intros M E ps l l' F H. revert l' F. induction H as [|p o ps l H _ IH]; intros l' F H'; inversion H'; subst; [reflexivity|].
  cbn [map] in F. inversion F; subst. f_equal; [|now apply IH]. apply (E p); try assumption. eapply flag_same; eauto.
Qed.
Lemma group_read_eq (chk : bool) b raw g l l' : (pg_dense g = None -> Forall (fun inf => flag_of inf <> None) (infos_of g)) ->
  group_read chk b raw g l -> group_read chk b raw g l' -> l = l'.
Proof.
  intros F (H1 & H2 & H3) (H1' & H2' & H3'). destruct (pg_dense g) as [d|] eqn:Ed; [eapply dense_objs_eq; eauto|].
  specialize (F eq_refl). unfold infos_of in F. destruct (pg_ways g) as [|p ps] eqn:Ew.
  - refine (reads_same pr_info (rel_read chk raw) raw _ _ _ _ _ F (H3 eq_refl eq_refl) (H3' eq_refl eq_refl)).
    + intros q o (r & -> & _ & M & _). exact M.
    + intros q o o'. apply rel_read_eq.
  - refine (reads_same pw_info (way_read chk raw) raw _ _ _ _ _ F (H2 eq_refl _) (H2' eq_refl _)); try discriminate.
    + intros q o (r & -> & _ & M & _). exact M.
    + intros q o o'. apply way_read_eq.
Qed.

Lemma group_len (chk : bool) b raw g l l' : group_is b raw g l -> group_read chk b raw g l' -> length l = length l'.
Proof.
  intros G (H1 & H2 & H3). inversion G as [d ns Hd|ps ws Hn Hw|ps rs Hn Hr]; subst; cbn [pg_dense pg_ways pg_rels] in *; rewrite map_length.
  - destruct (H1 d eq_refl) as (L & _). destruct Hd as (di & runs & _ & _ & _ & L1 & _). congruence.
  - rewrite <- (Forall2_len _ _ _ Hw). apply (Forall2_len _ _ _ (H2 eq_refl Hn)).
  - rewrite <- (Forall2_len _ _ _ Hr). apply (Forall2_len _ _ _ (H3 eq_refl eq_refl)).
Qed.
Lemma concat_same {A} (ls ls' : list (list A)) : Forall2 (fun l l' => length l = length l') ls ls' -> concat ls = concat ls' -> ls = ls'.
Proof.
  induction 1 as [|l l' ls ls' L _ IH]; [reflexivity|]. cbn [concat]. intros E.
  assert (l = l') as ->.
  { rewrite <- (firstn_all l), <- (firstn_all l'), <- L. apply (f_equal (firstn (length l))) in E.
    rewrite !firstn_app, L, Nat.sub_diag in E. cbn [firstn] in E. rewrite !app_nil_r in E. now rewrite L. }
  apply app_inv_head in E. now rewrite IH.
Qed.

(** What a decoder returns for a block that means [ls] has the same shape. *)
Lemma decoded_shape rt (chk : build) b raw ls os : decodes rt chk b raw os -> Forall2 (group_is b raw) (pb_groups b) ls ->
  exists ls', os = concat ls' /\ Forall2 (group_read chk b raw) (pb_groups b) ls' /\ Forall2 (fun l l' => length l = length l') ls ls'.
Proof.
  intros H G. apply decoded_groups in H as (ls' & -> & F). exists ls'. split; [reflexivity|]. split; [exact F|].
  clear -G F. revert ls' F. induction G as [|g l gs ls G _ IH]; intros ls' F; inversion F; subst; constructor; [eapply group_len; eassumption|now apply IH].
Qed.
Lemma concat_len {A} (ls ls' : list (list A)) : Forall2 (fun l l' => length l = length l') ls ls' -> length (concat ls) = length (concat ls').
Proof. induction 1; cbn [concat]; [reflexivity|]. rewrite !app_length. congruence. Qed.

Lemma all_facts (chk : build) b raw gs ls : Forall2 (group_is b raw) gs ls -> text_table raw -> Forall in_range (concat ls) ->
  Forall2 (group_right chk b raw) gs ls ->
  Forall2 (group_read chk b raw) gs ls /\ Forall (s_group_accepted chk true true true b raw) gs /\ Forall (a_group_accepted chk b raw) gs.
Proof.
  intros G Tx R H. revert R H. induction G as [|g l gs ls G _ IH]; intros R H; [repeat constructor|]. inversion H; subst.
  cbn [concat] in R. apply Forall_app in R as (R1 & R2). destruct (IH R2 ltac:(assumption)) as (A & B & C).
  destruct (right_facts chk b raw g l G Tx R1 ltac:(assumption)) as (A' & B' & C'). repeat split; constructor; assumption.
Qed.
Lemma right_flags (chk : bool) b raw g l : group_right chk b raw g l -> pg_dense g = None -> Forall (fun inf => flag_of inf <> None) (infos_of g).
Proof. intros H E. unfold group_right in H. rewrite E in H. eapply Forall2_Forall_l; [|exact H]. intros inf o (F & _). exact F. Qed.
Lemma reads_eq (chk : bool) b raw gs ls ls' : Forall2 (group_right chk b raw) gs ls ->
  Forall2 (group_read chk b raw) gs ls -> Forall2 (group_read chk b raw) gs ls' -> ls = ls'.
Proof.
  intros H. revert ls'. induction H as [|g l gs ls H _ IH]; intros ls' F F'; inversion F; subst; inversion F'; subst; [reflexivity|].
  f_equal; [|now apply IH]. eapply group_read_eq; [intros E; exact (right_flags _ _ _ _ _ H E)|eassumption..].
Qed.
Lemma all_right (chk : bool) b raw gs ls : Forall2 (group_is b raw) gs ls -> Forall in_range (concat ls) -> Forall2 (group_read chk b raw) gs ls ->
  Forall (fun g => (forall d, pg_dense g = Some d -> dense_accepted chk b raw d) /\
    (pg_dense g = None -> Forall (fun inf => flag_of inf <> None) (infos_of g))) gs -> Forall2 (group_right chk b raw) gs ls.
Proof.
  intros G. induction G as [|g l gs ls G _ IH]; intros R F A; inversion F; subst; inversion A as [|? ? (A1 & A2) A3]; subst; constructor.
  - cbn [concat] in R. apply Forall_app in R as (R1 & _). now apply read_right.
  - cbn [concat] in R. apply Forall_app in R as (_ & R2). now apply IH.
Qed.

Lemma arc_flags (chk : build) b raw g : a_group_accepted chk b raw g -> pg_dense g = None -> Forall (fun inf => flag_of inf <> None) (infos_of g).
Proof.
  intros (_ & _ & _ & W & R) E. unfold infos_of. assert (K : forall inf, has_flag inf -> flag_of inf <> None) by (intros inf (i & -> & H); exact H).
  destruct (pg_ways g) as [|p ps] eqn:Ew.
  - specialize (R E eq_refl). rewrite Forall_map. eapply Forall_impl; [|exact R]. intros q (_ & _ & _ & _ & Fl). now apply K.
  - specialize (W E ltac:(discriminate)). rewrite Forall_map. eapply Forall_impl; [|exact W]. intros q (_ & _ & _ & Fl). now apply K.
Qed.

(** What the format says about the deleted flag. *)
Lemma format_flag b raw g l : group_is b raw g l -> pg_dense g = None -> Forall2 (fun inf o => m_deleted (s_meta o) = by_format inf) (infos_of g) l.
Proof.
  intros G E. inversion G as [d ns Hd|ps ws Hn Hw|ps rs Hn Hr]; subst; [discriminate| |]; unfold infos_of; cbn [pg_ways pg_rels].
  - assert (A : Forall2 (fun inf o => m_deleted (s_meta o) = by_format inf) (map pw_info ps) (map SWay ws)); [|destruct ps; [easy|exact A]].
    clear -Hw. induction Hw as [|p w ps ws (_ & I & _) _ IH]; cbn [map]; constructor; [|exact IH].
    destruct I as (i & ts & u & sid & -> & I). cbn [s_meta by_format flag_of]. unfold by_format. cbn [flag_of].
    rewrite (proj2 (proj2 (proj2 (proj2 (proj2 (proj2 (proj2 (proj2 (proj2 (proj2 (proj2 I))))))))))). now destruct (i_visible i) as [[|]|].
  - clear -Hr. induction Hr as [|p w ps ws (_ & I & _) _ IH]; cbn [map]; constructor; [|exact IH].
    destruct I as (i & ts & u & sid & -> & I). cbn [s_meta by_format flag_of]. unfold by_format. cbn [flag_of].
    rewrite (proj2 (proj2 (proj2 (proj2 (proj2 (proj2 (proj2 (proj2 (proj2 (proj2 (proj2 I))))))))))). now destruct (i_visible i) as [[|]|].
Qed.

(** ** C43

    A block that means the objects [concat ls], all of them with values that the library
    can represent.  The String reader returns those objects exactly if the block has one
    group and the group is right; the Arc reader, exactly if all groups are right. *)
Theorem C43_block_exact : forall rt (chk : build) data b raw ls, parse_block rt data = Some b ->
  pb_strings b = Some raw -> text_table raw -> Forall2 (group_is b raw) (pb_groups b) ls -> Forall in_range (concat ls) ->
  (s_decode_block chk (OF true true true) b = Ret (concat ls) <->
   length (pb_groups b) = 1%nat /\ Forall2 (group_right chk b raw) (pb_groups b) ls) /\
  ((exists ao, a_decode_block chk b = Ret ao /\ map a_view ao = concat ls) <->
   Forall2 (group_right chk b raw) (pb_groups b) ls).
Proof.
  intros rt chk data b raw ls Hp Hr Tx G R. split; split.
  - intros H. assert (D : decodes rt chk b raw (concat ls)) by (split; [now exists data|]; split; [exact Hr|]; now left).
    destruct (decoded_shape rt chk b raw ls _ D G) as (ls' & E & F & L). apply (concat_same _ _ L) in E. subst ls'.
    assert (s_accepted chk true true true b) as (raw' & g & Hr' & Hg & Ac) by (apply (C101_string rt chk true true true data b Hp); eexists; exact H).
    assert (raw' = raw) as -> by congruence. split; [now rewrite Hg|]. apply all_right; try assumption. rewrite Hg. constructor; [|constructor]. split.
    + intros d Ed. now apply Ac.
    + intros Ed. apply (proj1 (proj1 (proj2 (C39_exact chk b g (concat ls) H Hg Ed)))). rewrite Hg in G. inversion G as [|? l ? ls' G1 G2]; subst. inversion G2; subst.
      cbn [concat]. rewrite app_nil_r. now apply (format_flag b raw).
  - intros (L1 & H). destruct (all_facts chk b raw _ _ G Tx R H) as (F & As & _).
    destruct (pb_groups b) as [|g [|g2 gs]] eqn:Hg; try discriminate.
    assert (exists os, s_decode_block chk (OF true true true) b = Ret os) as (os & E).
    { apply (C101_string rt chk true true true data b Hp). exists raw, g. split; [exact Hr|]. split; [exact Hg|]. now inversion As. }
    assert (D : decodes rt chk b raw os) by (split; [now exists data|]; split; [exact Hr|]; now left).
    apply decoded_groups in D as (ls' & -> & F'). rewrite Hg in F'. rewrite (reads_eq chk b raw _ _ _ H F F'). exact E.
  - intros (ao & H & Ev). assert (D : decodes rt chk b raw (concat ls)).
    { split; [now exists data|]. split; [exact Hr|]. right. split; [exact Tx|]. now exists ao. }
    destruct (decoded_shape rt chk b raw ls _ D G) as (ls' & E & F & L). apply (concat_same _ _ L) in E. subst ls'.
    assert (a_accepted chk b) as (raw' & Hr' & Ac) by (apply (C101_arc rt chk data b Hp); eexists; exact H).
    assert (raw' = raw) as -> by congruence. apply all_right; try assumption. eapply Forall_impl; [|exact Ac]. intros g A. split.
    + intros d Ed. now apply A.
    + intros Ed. eapply arc_flags; eassumption.
  - intros H. destruct (all_facts chk b raw _ _ G Tx R H) as (F & _ & Aa).
    assert (exists ao, a_decode_block chk b = Ret ao) as (ao & E).
    { apply (C101_arc rt chk data b Hp). now exists raw. }
    assert (D : decodes rt chk b raw (map a_view ao)).
    { split; [now exists data|]. split; [exact Hr|]. right. split; [exact Tx|]. now exists ao. }
    apply decoded_groups in D as (ls' & Ev & F'). exists ao. split; [exact E|]. now rewrite Ev, (reads_eq chk b raw _ _ _ H F F').
Qed.
Print Assumptions C43_block_exact.

(** *** Files *)

(** The data of a blob. *)
Definition content (inflate : bytes -> option bytes) (bl : blob) (data : bytes) : Prop :=
  bl_raw bl = Some data \/ bl_raw bl = None /\ exists z, bl_zlib bl = Some z /\ inflate z = Some data.

(** [l] is what the item means: the objects of its block, with representable values. *)
Definition means (rt : pbrt) (inflate : bytes -> option bytes) (i : item) (l : list sobj) : Prop :=
  match i with
  | Other _ _ _ => l = []
  | Data _ bl => Forall in_range l /\ exists data b, content inflate bl data /\ parse_block rt data = Some b /\ block_is b l
  end.

(** The item's block is right. *)
Definition block_right (rt : pbrt) (chk : bool) (inflate : bytes -> option bytes) (bl : blob) (P : pblock -> Prop) (l : list sobj) : Prop :=
  exists data b raw ls, content inflate bl data /\ parse_block rt data = Some b /\ pb_strings b = Some raw /\ l = concat ls /\
    Forall2 (group_is b raw) (pb_groups b) ls /\ Forall2 (group_right chk b raw) (pb_groups b) ls /\ P b.

(** The String reader wants compressed blobs with one group; the Arc reader wants the
    size of the data of compressed blobs. *)
Definition s_right (rt : pbrt) (chk : bool) (inflate : bytes -> option bytes) (i : item) (l : list sobj) : Prop :=
  match i with
  | Other _ _ _ => True
  | Data _ bl => bl_raw bl = None /\ block_right rt chk inflate bl (fun b => length (pb_groups b) = 1%nat) l
  end.
Definition a_right (rt : pbrt) (chk : bool) (inflate : bytes -> option bytes) (i : item) (l : list sobj) : Prop :=
  match i with
  | Other _ _ _ => True
  | Data _ bl => (bl_raw bl = None -> exists n, bl_raw_size bl = Some n /\ 0 <= n) /\ block_right rt chk inflate bl (fun _ => True) l
  end.

Lemma app_same {A} (l l' a b : list A) : length l = length l' -> l ++ a = l' ++ b -> l = l' /\ a = b.
Proof.
  revert l'. induction l as [|x l IH]; intros [|y l'] L E; try discriminate; [now split|]. injection L as L. injection E as -> E.
  destruct (IH l' L E) as (-> & ->). now split.
Qed.
Lemma file_right {A} rt (decode : blob -> outcome (list A)) (f : A -> sobj) (m right : item -> list sobj -> Prop) is ls :
  (forall t ix d l, m (Other t ix d) l -> l = [] /\ right (Other t ix d) l) ->
  (forall ix b l x, m (Data ix b) l -> decode b = Ret x -> length l = length x) ->
  (forall ix b l, m (Data ix b) l -> right (Data ix b) l <-> exists x, decode b = Ret x /\ map f x = l) ->
  Forall item_ok is -> Forall2 m is ls ->
  (exists os, Runs (buf_next rt decode) (file_bytes (map item_frame is), []) os (Ret ([], [])) /\ map f os = concat ls) <->
  Forall2 right is ls.
Proof.
  intros Ho Hl Hr Ok M. pose proof (C33_data_blobs_in_order rt is Ok) as R. split.
  - intros (os & H & E). apply buffered_inv in H as (bs & rb & R' & D). destruct (Runs_det _ _ _ _ R _ _ R') as (<- & <-).
    destruct D as [(ls' & F & -> & _)|(bs1 & b & bs2 & ls' & _ & _ & _ & _ & X)]; [|discriminate]. cbn [app] in E. clear R R' Ok.
    revert ls' F E. induction M as [|i l is ls Mi _ IH]; intros ls' F E; [constructor|].
    destruct i as [ix b|t ix d]; cbn [filter_map item_blob] in F.
    + inversion F as [|? x ? xs Dx F']; subst. cbn [concat] in E. rewrite map_app in E.
      assert (L : length l = length (map f x)) by (rewrite map_length; eapply Hl; eassumption).
      assert (El : map f x = l /\ map f (concat xs) = concat ls).
      { symmetry in L. exact (app_same _ _ _ _ L E). }
      destruct El as (E1 & E2). constructor; [|now apply (IH xs)]. apply (Hr ix b l Mi). now exists x.
    + destruct (Ho _ _ _ _ Mi) as (-> & Rt). constructor; [exact Rt|]. now apply (IH ls').
  - intros H. assert (exists ls', Forall2 (fun b l => decode b = Ret l) (filter_map item_blob is) ls' /\ map f (concat ls') = concat ls) as (ls' & F & E).
    { clear R Ok. induction M as [|i l is ls Mi _ IH]; [exists []; split; [constructor|reflexivity]|]. inversion H; subst.
      destruct (IH ltac:(assumption)) as (ls' & F & E). destruct i as [ix b|t ix d]; cbn [filter_map item_blob concat].
      - destruct (proj1 (Hr ix b l Mi) ltac:(assumption)) as (x & Dx & <-). exists (x :: ls'). split; [now constructor|]. cbn [concat]. now rewrite map_app, E.
      - destruct (Ho _ _ _ _ Mi) as (-> & _). now exists ls'. }
    exists (concat ls'). split; [|exact E]. exact (runs_buffered rt decode _ _ _ R ls' [] F).
Qed.

Lemma content_det inflate bl data data' : content inflate bl data -> content inflate bl data' -> data = data'.
Proof. intros [H|(H & z & H1 & H2)] [H'|(H' & z' & H1' & H2')]; congruence. Qed.

Lemma s_blob_eq rt (chk : build) inflate bl data b : content inflate bl data -> parse_block rt data = Some b ->
  s_blob rt chk inflate (OF true true true) bl = match bl_raw bl with Some _ => Panic | None => s_decode_block chk (OF true true true) b end.
Proof.
  intros C Hp. assert (data <> []) as N by (intros ->; now apply parse_nonempty in Hp). unfold s_blob, s_blob_data.
  destruct C as [C|(C & z & Z & I)]; rewrite C; [destruct data; [easy|reflexivity]|]. rewrite Z, I. cbn [unwrap obind].
  destruct data as [|x data]; [easy|]. now rewrite Hp.
Qed.
Lemma a_blob_eq rt (chk : build) inflate bl data b : content inflate bl data -> parse_block rt data = Some b ->
  ((bl_raw bl = None -> exists n, bl_raw_size bl = Some n /\ 0 <= n) -> a_blob rt chk inflate bl = a_decode_block chk b) /\
  (~ (bl_raw bl = None -> exists n, bl_raw_size bl = Some n /\ 0 <= n) -> a_blob rt chk inflate bl = Panic).
Proof.
  intros C Hp. unfold a_blob, a_blob_data. destruct C as [C|(C & z & Z & I)]; rewrite C.
  - cbn [obind]. rewrite Hp. cbn [unwrap obind]. split; [reflexivity|]. intros H. exfalso. apply H. discriminate.
  - rewrite Z. split.
    + intros H. destruct (H eq_refl) as (n & -> & Hn). cbn [unwrap obind]. replace (n <? 0) with false by lia. rewrite I. cbn [unwrap obind]. now rewrite Hp.
    + intros H. destruct (bl_raw_size bl) as [n|] eqn:En; [|reflexivity]. cbn [unwrap obind]. destruct (n <? 0) eqn:Hn; [reflexivity|].
      exfalso. apply H. intros _. exists n. split; [reflexivity|lia].
Qed.

Lemma block_groups b l raw ls : block_is b l -> pb_strings b = Some raw -> l = concat ls -> Forall2 (group_is b raw) (pb_groups b) ls -> text_table raw.
Proof. intros (raw' & ls' & E & T & _) E' _ _. congruence. Qed.

(** A file whose items mean the objects [concat ls] is read as those objects to its end
    by the String reader exactly if all its items are right for it; likewise by the Arc
    reader. *)
Theorem C43_exact : forall rt (chk : build) inflate is ls, Forall item_ok is -> Forall2 (means rt inflate) is ls ->
  (Runs (s_next rt chk inflate) (s_new (file_bytes (map item_frame is))) (concat ls) (Ret (s_new [])) <->
   Forall2 (s_right rt chk inflate) is ls) /\
  ((exists os, Runs (a_next rt chk inflate) (file_bytes (map item_frame is), []) os (Ret ([], [])) /\ map a_view os = concat ls) <->
   Forall2 (a_right rt chk inflate) is ls).
Proof.
  intros rt chk inflate is ls Ok M. split.
  - assert (A := file_right rt (s_blob rt chk inflate (OF true true true)) (fun o => o) (means rt inflate) (s_right rt chk inflate) is ls).
    rewrite <- A; [..|exact Ok|exact M]; clear A.
    + split.
      * intros H. apply s_next_runs_inv in H as (r & H & E). cbn [s_new sr_filter sr_src sr_buf] in H. exists (concat ls). rewrite map_id. split; [|reflexivity].
        destruct r as [(x, y)|]; [|discriminate]. injection E as <- <-. exact H.
      * intros (os & H & E). rewrite map_id in E. subst os. apply s_next_runs in H. exact H.
    + intros t ix d l ->. now split.
    + intros ix bl l x (Rg & data & b & C & Hp & (raw & ls' & Hr & Tx & G & ->)) H. rewrite (s_blob_eq _ _ _ _ _ _ C Hp) in H.
      destruct (bl_raw bl); [discriminate|]. assert (D : decodes rt chk b raw x) by (split; [now exists data|]; split; [exact Hr|]; now left).
      destruct (decoded_shape rt chk b raw ls' _ D G) as (ls2 & -> & _ & L). now apply concat_len.
    + intros ix bl l (Rg & data & b & C & Hp & B). cbn [s_right]. rewrite (s_blob_eq _ _ _ _ _ _ C Hp). split.
      * intros (-> & data' & b' & raw & ls' & C' & Hp' & Hr & El & G & Ri & L1). rewrite (content_det _ _ _ _ C' C) in Hp'.
        assert (b' = b) as -> by congruence. pose proof (block_groups _ _ _ _ B Hr El G) as Tx. exists l. rewrite map_id. split; [|reflexivity].
        rewrite El in Rg |- *. now apply (proj1 (C43_block_exact rt chk data b raw ls' Hp Hr Tx G Rg)).
      * intros (x & H & E). rewrite map_id in E. subst x. destruct (bl_raw bl); [discriminate|]. split; [reflexivity|].
        destruct B as (raw & ls' & Hr & Tx & G & ->). apply (proj1 (C43_block_exact rt chk data b raw ls' Hp Hr Tx G Rg)) in H as (L1 & H).
        now exists data, b, raw, ls'.
  - assert (A := file_right rt (a_blob rt chk inflate) a_view (means rt inflate) (a_right rt chk inflate) is ls).
    rewrite <- A; [..|exact Ok|exact M]; clear A.
    + split; intros (os & H & E); exists os; (split; [|exact E]).
      * apply a_next_runs_inv in H as (r & H & X). destruct r as [(x, y)|]; [|discriminate]. cbn [fst snd] in X. injection X as <- Y.
        destruct y as [|o y]; [exact H|]. cbn [rev] in Y. now destruct (rev y).
      * apply a_next_runs in H. exact H.
    + intros t ix d l ->. now split.
    + intros ix bl l x (Rg & data & b & C & Hp & (raw & ls' & Hr & Tx & G & ->)) H. destruct (a_blob_eq rt chk inflate bl data b C Hp) as (E1 & E2).
      assert (X : a_decode_block chk b = Ret x).
      { destruct (bl_raw bl) as [r|]; [rewrite E1 in H; [exact H|discriminate]|]. destruct (bl_raw_size bl) as [n|]; [destruct (Z.ltb_spec n 0)|].
        - rewrite E2 in H; [discriminate|]. intros K. destruct (K eq_refl) as (n' & En & Hn). injection En as <-. lia.
        - rewrite E1 in H; [exact H|]. intros _. now exists n.
        - rewrite E2 in H; [discriminate|]. intros K. destruct (K eq_refl) as (n' & En & Hn). discriminate. }
      assert (D : decodes rt chk b raw (map a_view x)).
      { split; [now exists data|]. split; [exact Hr|]. right. split; [exact Tx|]. now exists x. }
      destruct (decoded_shape rt chk b raw ls' _ D G) as (ls2 & E & _ & L). rewrite <- (map_length a_view x), E. now apply concat_len.
    + intros ix bl l (Rg & data & b & C & Hp & B). cbn [a_right]. destruct (a_blob_eq rt chk inflate bl data b C Hp) as (E1 & E2). split.
      * intros (Sz & data' & b' & raw & ls' & C' & Hp' & Hr & El & G & Ri & _). rewrite (content_det _ _ _ _ C' C) in Hp'.
        assert (b' = b) as -> by congruence. pose proof (block_groups _ _ _ _ B Hr El G) as Tx. rewrite (E1 Sz). rewrite El in Rg |- *.
        now apply (proj2 (C43_block_exact rt chk data b raw ls' Hp Hr Tx G Rg)).
      * intros (x & H & E).
        assert (Sz : bl_raw bl = None -> exists n, bl_raw_size bl = Some n /\ 0 <= n).
        { intros Er. destruct (bl_raw_size bl) as [n|]; [destruct (Z.ltb_spec n 0)|].
          - rewrite E2 in H; [discriminate|]. intros K. destruct (K Er) as (n' & En & Hn). injection En as <-. lia.
          - now exists n.
          - rewrite E2 in H; [discriminate|]. intros K. destruct (K Er) as (n' & En & Hn). discriminate. }
        split; [exact Sz|]. rewrite (E1 Sz) in H. destruct B as (raw & ls' & Hr & Tx & G & ->). exists data, b, raw, ls'.
        repeat match goal with |- _ /\ _ => split end; try assumption; try reflexivity.
        apply (proj2 (C43_block_exact rt chk data b raw ls' Hp Hr Tx G Rg)). now exists x.
Qed.
Print Assumptions C43_exact.

(** A file with a block of one group and a block of two groups: right for the Arc
    reader, and not for the String reader; the first block alone is right for both. *)
Definition ex_nodes : kind_list :=
  KNodes [SN (ex_meta 1) [([107], [118])] (Some (515000000, -1000000)); SN (ex_meta 2) [] (Some (5, 6))].
Definition ex_twice : pblock :=
  PBlock (Some (raw_table (objs_of ex_nodes))) [enc_group ex_nodes; enc_group ex_nodes] None None None None.
Definition ex_item (b : pblock) : item :=
  Data None (Blob None (Some (Z.of_nat (length (ser_block b)))) (Some (ser_block b)) None None).
Lemma dense_params b b' raw g l : gran_of b' = gran_of b -> lat_off_of b' = lat_off_of b -> lon_off_of b' = lon_off_of b ->
  date_gran_of b' = date_gran_of b -> pg_dense g <> None -> group_is b raw g l -> group_is b' raw g l.
Proof.
  intros E1 E2 E3 E4 Dn G. inversion G as [d ns Hd|ps ws Hn Hw|ps rs Hn Hr]; subst; try (now exfalso; apply Dn).
  apply GDense. destruct Hd as (di & runs & A1 & A2 & A3 & A4 & A5 & A6 & A7 & A8 & A9 & A10 & A11 & A12 & A13 & A14). exists di, runs.
  repeat match goal with |- _ /\ _ => split end; try assumption. intros i n Hi. destruct (A14 i n Hi) as [Q1 Q2 Q3 Q4 Q5 Q6 Q7 Q8 Q9].
  constructor; try assumption; rewrite ?E1, ?E2, ?E3, ?E4; assumption.
Qed.
Example C43_exact_ex :
  Forall item_ok [ex_item (enc_block ex_nodes); ex_item ex_twice] /\
  Forall2 (means ex_rt Some) [ex_item (enc_block ex_nodes); ex_item ex_twice] [objs_of ex_nodes; objs_of ex_nodes ++ objs_of ex_nodes] /\
  Forall2 (a_right ex_rt (plain true) Some) [ex_item (enc_block ex_nodes); ex_item ex_twice] [objs_of ex_nodes; objs_of ex_nodes ++ objs_of ex_nodes] /\
  s_right ex_rt (plain true) Some (ex_item (enc_block ex_nodes)) (objs_of ex_nodes) /\
  ~ s_right ex_rt (plain true) Some (ex_item ex_twice) (objs_of ex_nodes ++ objs_of ex_nodes).
Proof.
  assert (K : kind_ok ex_nodes) by exact (Forall_inv (proj1 C43_example)).
  pose proof (enc_block_is _ K) as (raw & ls & Hr & Tx & G & E). injection Hr as <-. inversion G as [|? l ? ls' G1 G2]; subst. inversion G2; subst.
  cbn [concat] in E. rewrite app_nil_r in E. subst l.
  assert (P1 : parse_block ex_rt (ser_block (enc_block ex_nodes)) = Some (enc_block ex_nodes)) by (vm_compute; reflexivity).
  assert (P2 : parse_block ex_rt (ser_block ex_twice) = Some ex_twice) by (vm_compute; reflexivity).
  assert (R : Forall in_range (objs_of ex_nodes)).
  { cbn [objs_of ex_nodes map]. repeat constructor; unfold in_i64, in_u32, in_i32; cbn; try lia. }
  assert (G2' : Forall2 (group_is ex_twice (raw_table (objs_of ex_nodes))) (pb_groups ex_twice) [objs_of ex_nodes; objs_of ex_nodes]).
  { constructor; [|constructor; [|constructor]]; (apply (dense_params (enc_block ex_nodes)); [reflexivity|reflexivity|reflexivity|reflexivity|cbn [enc_group ex_nodes pg_dense]; congruence|exact G1]). }
  assert (Rt : Forall in_range (concat [objs_of ex_nodes; objs_of ex_nodes])).
  { cbn [concat]. rewrite app_nil_r. apply Forall_app. split; exact R. }
  assert (R1 : Forall in_range (concat [objs_of ex_nodes])) by (cbn [concat]; now rewrite app_nil_r).
  split; [|split; [|split; [|split]]].
  - assert (V : valid_str (lit "OSMData")) by (apply scalar_lits; vm_compute; reflexivity).
    constructor; [|constructor; [|constructor]]; (split; [split; [exact V|split; vm_compute; reflexivity]|vm_compute; split; congruence]).
  - constructor; [|constructor; [|constructor]].
    + split; [exact R|]. exists (ser_block (enc_block ex_nodes)), (enc_block ex_nodes). split; [right; split; [reflexivity|]; eexists; split; reflexivity|].
      split; [exact P1|]. now apply enc_block_is.
    + split; [apply Forall_app; split; exact R|]. exists (ser_block ex_twice), ex_twice. split; [right; split; [reflexivity|]; eexists; split; reflexivity|].
      split; [exact P2|]. eexists _, _. split; [reflexivity|]. split; [exact Tx|]. split; [exact G2'|]. cbn [concat]. now rewrite app_nil_r.
  - constructor; [|constructor; [|constructor]].
    + split; [intros _; eexists; split; [reflexivity|apply Nat2Z.is_nonneg]|]. exists (ser_block (enc_block ex_nodes)), (enc_block ex_nodes), (raw_table (objs_of ex_nodes)), [objs_of ex_nodes].
      split; [right; split; [reflexivity|]; eexists; split; reflexivity|]. split; [exact P1|]. split; [reflexivity|]. split; [cbn [concat]; now rewrite app_nil_r|].
      split; [exact G|]. split; [|exact I]. apply (proj2 (C43_block_exact ex_rt (plain true) _ _ _ _ P1 eq_refl Tx G R1)). eexists. split; vm_compute; reflexivity.
    + split; [intros _; eexists; split; [reflexivity|apply Nat2Z.is_nonneg]|]. exists (ser_block ex_twice), ex_twice, (raw_table (objs_of ex_nodes)), [objs_of ex_nodes; objs_of ex_nodes].
      split; [right; split; [reflexivity|]; eexists; split; reflexivity|]. split; [exact P2|]. split; [reflexivity|]. split; [cbn [concat]; now rewrite app_nil_r|].
      split; [exact G2'|]. split; [|exact I]. apply (proj2 (C43_block_exact ex_rt (plain true) _ _ _ _ P2 eq_refl Tx G2' Rt)). eexists. split; vm_compute; reflexivity.
  - split; [reflexivity|]. exists (ser_block (enc_block ex_nodes)), (enc_block ex_nodes), (raw_table (objs_of ex_nodes)), [objs_of ex_nodes].
    split; [right; split; [reflexivity|]; eexists; split; reflexivity|]. split; [exact P1|]. split; [reflexivity|]. split; [cbn [concat]; now rewrite app_nil_r|].
    split; [exact G|]. apply and_comm. apply (proj1 (C43_block_exact ex_rt (plain true) _ _ _ _ P1 eq_refl Tx G R1)). vm_compute. reflexivity.
  - intros (_ & data & b & raw & ls & [C|(_ & z & C1 & C2)] & Hp & _ & _ & _ & _ & L); [discriminate C|]. cbn [bl_zlib] in C1. injection C1 as <-. injection C2 as <-.
    assert (b = ex_twice) as -> by congruence. discriminate L.
Qed.
