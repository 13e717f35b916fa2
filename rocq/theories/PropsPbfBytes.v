(** Property C102: what the PBF readers make of any bytes at all. *)
From Coq Require Import String ZArith List Bool Lia.
From Coq Require Import ZifyBool ZifyNat.
From Verif Require Import Base Utf8 Timestamp Obj PbWire PbMsg PbMsgFacts PbRange PbfRead SpecPbf SpecPbfRead SpecPbfAccept SpecWire
  SpecPbfBytes SpecIter PbfFacts PbfSound PbfFrame PbfAccept PropsPbfFile PropsPbfBlock PropsPbfWire PropsAccept WireExact.
Import ListNotations.
Open Scope Z_scope.

(** A build of the library that rejects numbers too large for their field parses
    exactly the encodings of messages whose required fields are present. *)
Theorem C102_messages : forall bs, Forall byte bs ->
  (forall h, parse_header strict bs = Some h <-> exists fs, message_bytes fs bs /\ header_enc h fs /\ header_complete h) /\
  (forall bl, parse_blob strict bs = Some bl <-> exists fs, message_bytes fs bs /\ blob_enc bl fs) /\
  (forall b, parse_block strict bs = Some b <-> exists fs, message_bytes fs bs /\ block_enc b fs /\ block_complete b).
Proof.
  intros bs H. split; [|split]; intros m; [now apply parse_header_iff|now apply parse_blob_iff|now apply parse_block_iff].
Qed.
Print Assumptions C102_messages.

(** ** Frames *)

(** One turn of the loop in next_blob. *)
Definition one_frame (src : bytes) : outcome (blob_header * bytes * bytes) :=
  match read_u32_be src with
  | (None, _) => Panic
  | (Some size, r) =>
      do (hb, r) <- read_exact size r;
      do h <- unwrap (parse_header strict hb);
      do (bb, r) <- read_exact (unwrap_or (bh_datasize h) 0) r;
      Ret (h, bb, r)
  end.

Lemma be32_length n : length (length_bytes n) = 4%nat.
Proof. reflexivity. Qed.
Lemma read_u32_length n r : 0 <= n < 2^32 -> read_u32_be (length_bytes n ++ r) = (Some n, r).
Proof. apply read_u32_be32. Qed.

Lemma u32_bytes a b c d : byte a -> byte b -> byte c -> byte d ->
  [a; b; c; d] = length_bytes (((a * 256 + b) * 256 + c) * 256 + d) /\ 0 <= ((a * 256 + b) * 256 + c) * 256 + d < 2^32.
Proof.
  unfold byte, length_bytes. intros A B C D. split; [|lia].
  change (2^24) with (256 * (256 * 256)). change (2^16) with (256 * 256). change (2^8) with 256.
  set (x := (a * 256 + b) * 256 + c). set (y := a * 256 + b).
  assert (E1 : (x * 256 + d) / 256 = x) by (rewrite Z.add_comm, Z.div_add by lia; rewrite Z.div_small; lia).
  assert (E2 : x / 256 = y) by (subst x; rewrite Z.add_comm, Z.div_add by lia; rewrite Z.div_small; lia).
  assert (E3 : y / 256 = a) by (subst y; rewrite Z.add_comm, Z.div_add by lia; rewrite Z.div_small; lia).
  rewrite <- !Z.div_div by lia. rewrite E1, E2, E3.
  assert (M : forall u v, 0 <= v < 256 -> (u * 256 + v) mod 256 = v).
  { intros u v H. rewrite Z.add_comm, Z.mod_add by lia. now apply Z.mod_small. }
  subst x y. now rewrite !M.
Qed.

Lemma read_exact_inv n src b r : read_exact n src = Ret (b, r) -> src = b ++ r /\ Z.of_nat (length b) = n.
Proof.
  unfold read_exact. destruct (n <? 0) eqn:E; [easy|]. destruct (take n src) as [[x y]|] eqn:E1; [|easy]. cbn. intros H. injection H as <- <-.
  split; [now apply take_inv in E1|]. apply take_len in E1; [exact E1|lia].
Qed.

Lemma one_frame_iff src h body r : Forall byte src ->
  (one_frame src = Ret (h, body, r) <-> exists bs, src = bs ++ r /\ frame_of h body bs).
Proof.
  intros Hb. split.
  - unfold one_frame. destruct src as [|a [|b [|c [|d src]]]]; cbn [read_u32_be]; try discriminate.
    inversion Hb as [|? ? Ba Hb1]; subst. inversion Hb1 as [|? ? Bb Hb2]; subst. inversion Hb2 as [|? ? Bc Hb3]; subst. inversion Hb3 as [|? ? Bd Hb4]; subst.
    destruct (u32_bytes a b c d Ba Bb Bc Bd) as (E & R). set (n := ((a * 256 + b) * 256 + c) * 256 + d) in *. intros H.
    destruct (read_exact n src) as [[hb r1]|] eqn:E1; [|discriminate]. cbn [obind] in H. apply read_exact_inv in E1 as (-> & L1).
    destruct (parse_header strict hb) as [h'|] eqn:E2; [|discriminate]. cbn [unwrap obind] in H.
    destruct (read_exact _ r1) as [[bb r2]|] eqn:E3; [|discriminate]. cbn [obind] in H. injection H as -> -> ->. apply read_exact_inv in E3 as (-> & L2).
    apply Forall_app in Hb4 as (Hh & _). apply parse_header_iff in E2 as (hf & M & En & (C1 & C2)); [|exact Hh].
    exists ([a; b; c; d] ++ hb ++ body). split; [cbn [app]; now rewrite <- app_assoc|].
    exists hf, hb. rewrite E, L1. split; [reflexivity|]. split; [lia|]. split; [exact M|]. split; [exact En|]. split; [now split|].
    destruct C2 as (ds & C2). rewrite C2 in *. cbn [unwrap_or] in L2. now rewrite L2.
  - intros (bs & -> & hf & hb & -> & L & M & En & C & D). rewrite <- !app_assoc in *. apply Forall_app in Hb as (_ & Hb). apply Forall_app in Hb as (Hh & _).
    assert (P : parse_header strict hb = Some h) by (apply parse_header_iff; [exact Hh|]; now exists hf).
    unfold one_frame. rewrite read_u32_length by lia. rewrite read_exact_app by reflexivity. cbn [obind]. rewrite P. cbn [unwrap obind].
    rewrite D. cbn [unwrap_or]. rewrite read_exact_app by reflexivity. reflexivity.
Qed.

Lemma next_blob_turn src : (4 <= length src)%nat ->
  next_blob strict src =
  do (x, r) <- one_frame src; let '(h, bb) := x in
  do ty <- unwrap (bh_type h);
  if negb (str_eqb ty (lit "OSMData")) then next_blob strict r
  else do b <- unwrap (parse_blob strict bb); Ret (Some b, r).
Proof.
  intros L. unfold next_blob at 1. cbn [next_blob_fuel]. unfold one_frame. destruct (read_u32_be src) as [[n|] r] eqn:E.
  2: { destruct src as [|a [|b [|c [|d src]]]]; cbn in *; try lia; discriminate. }
  apply read_u32_rest in E. destruct (read_exact n r) as [[hb r1]|] eqn:E1; [|reflexivity]. cbn [obind]. apply read_exact_rest in E1.
  destruct (parse_header strict hb) as [h|]; [|reflexivity]. cbn [unwrap obind].
  destruct (read_exact _ r1) as [[bb r2]|] eqn:E2; [|reflexivity]. cbn [obind]. apply read_exact_rest in E2.
  destruct (bh_type h) as [ty|]; [|reflexivity]. cbn [unwrap obind]. destruct (str_eqb ty (lit "OSMData")); [reflexivity|]. cbn [negb].
  apply next_blob_fuel_irrel; lia.
Qed.

Lemma frame_length h body bs : frame_of h body bs -> (4 <= length bs)%nat.
Proof. intros (hf & hb & -> & _). rewrite app_length, be32_length. lia. Qed.

Lemma frame_next h body bs r : Forall byte (bs ++ r) -> frame_of h body bs ->
  next_blob strict (bs ++ r) =
  if list_eq_dec Z.eq_dec (unwrap_or (bh_type h) []) (lit "OSMData") then do b <- unwrap (parse_blob strict body); Ret (Some b, r) else next_blob strict r.
Proof.
  intros Hb Hf. rewrite next_blob_turn by (apply frame_length in Hf; rewrite app_length; lia).
  assert (E : one_frame (bs ++ r) = Ret (h, body, r)) by (apply one_frame_iff; [exact Hb|]; now exists bs). rewrite E. cbn [obind].
  destruct Hf as (hf & hb & _ & _ & _ & _ & ((ty & T) & _) & _). rewrite T. cbn [unwrap obind unwrap_or].
  destruct (list_eq_dec Z.eq_dec ty (lit "OSMData")) as [->|N].
  - replace (str_eqb (lit "OSMData") (lit "OSMData")) with true by (symmetry; apply str_eqb_refl). reflexivity.
  - destruct (str_eqb ty (lit "OSMData")) eqn:X; [now apply str_eqb_eq in X|reflexivity].
Qed.

Lemma type_dec h body bs : frame_of h body bs -> if list_eq_dec Z.eq_dec (unwrap_or (bh_type h) []) (lit "OSMData") then is_osm_data h else ~ is_osm_data h.
Proof.
  intros (hf & hb & _ & _ & _ & _ & ((ty & T) & _) & _). unfold is_osm_data. rewrite T. cbn [unwrap_or].
  destruct (list_eq_dec Z.eq_dec ty (lit "OSMData")) as [->|N]; [reflexivity|]. intros H. now injection H.
Qed.

Lemma frame_body h body bs : frame_of h body bs -> Forall byte bs -> Forall byte body.
Proof. intros (hf & hb & -> & _) H. apply Forall_app in H as (_ & H). now apply Forall_app in H. Qed.

Lemma framed_runs bls pieces : framed bls pieces -> forall tail l r, Forall byte (pieces ++ tail) ->
  Runs (next_blob strict) tail l r -> Runs (next_blob strict) (pieces ++ tail) (bls ++ l) r.
Proof.
  induction 1 as [|h bl body bs bls rest Hf Ht Hbl _ IH|h body bs bls rest Hf Ht _ IH]; intros tail l r Hb Hr; [exact Hr| |];
    rewrite <- app_assoc in *; pose proof (frame_next h body bs (rest ++ tail) Hb Hf) as E; pose proof (type_dec h body bs Hf) as T;
    destruct (list_eq_dec Z.eq_dec (unwrap_or (bh_type h) []) (lit "OSMData")); try contradiction; apply Forall_app in Hb as (Hb1 & Hb2).
  - apply parse_blob_iff in Hbl; [|exact (frame_body _ _ _ Hf Hb1)]. rewrite Hbl in E. cbn [unwrap obind] in E.
    cbn [app]. eapply Runs_step; [exact E|]. now apply IH.
  - eapply Runs_eq; [exact E|]. now apply IH.
Qed.

Lemma no_frame_panics src : Forall byte src -> (4 <= length src)%nat -> no_frame src -> next_blob strict src = Panic.
Proof.
  intros Hb L N. rewrite next_blob_turn by exact L. destruct (one_frame src) as [[[h body] r]|] eqn:E; [|reflexivity]. cbn [obind].
  apply one_frame_iff in E as (bs & -> & Hf); [|exact Hb]. destruct (N h body bs r eq_refl Hf) as (T & Nb).
  unfold is_osm_data in T. rewrite T. cbn [unwrap obind]. replace (str_eqb (lit "OSMData") (lit "OSMData")) with true by (symmetry; apply str_eqb_refl).
  cbn [negb]. destruct (parse_blob strict body) as [bl|] eqn:P; [|reflexivity]. exfalso. apply (Nb bl). apply Forall_app in Hb as (Hb & _).
  apply parse_blob_iff in P; [exact P|exact (frame_body _ _ _ Hf Hb)].
Qed.

(** Every sequence of bytes is a sequence of frames and a rest. *)
Lemma split_frames : forall n src, (length src <= n)%nat -> Forall byte src ->
  exists bls pieces tail, src = pieces ++ tail /\ framed bls pieces /\ ((length tail < 4)%nat \/ (4 <= length tail)%nat /\ no_frame tail).
Proof.
  induction n as [|n IH]; intros src L Hb.
  { exists [], [], src. split; [reflexivity|]. split; [constructor|]. left. lia. }
  destruct (Nat.lt_ge_cases (length src) 4) as [S|S].
  { exists [], [], src. split; [reflexivity|]. split; [constructor|]. now left. }
  destruct (one_frame src) as [[[h body] r]|] eqn:E.
  - apply one_frame_iff in E as (bs & -> & Hf); [|exact Hb]. pose proof (frame_length _ _ _ Hf) as Lf. rewrite app_length in L.
    pose proof Hb as Hb'. apply Forall_app in Hb' as (Hb1 & Hb2). pose proof (type_dec h body bs Hf) as T.
    destruct (list_eq_dec Z.eq_dec (unwrap_or (bh_type h) []) (lit "OSMData")).
    + destruct (parse_blob strict body) as [bl|] eqn:P.
      * apply parse_blob_iff in P; [|exact (frame_body _ _ _ Hf Hb1)]. destruct (IH r ltac:(lia) Hb2) as (bls & pieces & tail & -> & F & C).
        exists (bl :: bls), (bs ++ pieces), tail. rewrite app_assoc. split; [reflexivity|]. split; [|exact C]. econstructor; eassumption.
      * exists [], [], (bs ++ r). split; [reflexivity|]. split; [constructor|]. right. split; [exact S|]. intros h' body' bs' rest' E' Hf'.
        assert (O : one_frame (bs ++ r) = Ret (h', body', rest')) by (apply one_frame_iff; [exact Hb|]; now exists bs').
        assert (O2 : one_frame (bs ++ r) = Ret (h, body, r)) by (apply one_frame_iff; [exact Hb|]; now exists bs).
        rewrite O in O2. injection O2 as -> -> ->. split; [exact T|]. intros bl Hbl.
        apply parse_blob_iff in Hbl; [congruence|exact (frame_body _ _ _ Hf Hb1)].
    + destruct (IH r ltac:(lia) Hb2) as (bls & pieces & tail & -> & F & C). exists bls, (bs ++ pieces), tail. rewrite app_assoc.
      split; [reflexivity|]. split; [|exact C]. econstructor; eassumption.
  - exists [], [], src. split; [reflexivity|]. split; [constructor|]. right. split; [exact S|]. intros h body bs rest -> Hf.
    assert (O : one_frame (bs ++ rest) = Ret (h, body, rest)) by (apply one_frame_iff; [exact Hb|]; now exists bs). congruence.
Qed.

Lemma framed_run src bls pieces tail : Forall byte src -> src = pieces ++ tail -> framed bls pieces ->
  ((length tail < 4)%nat -> Runs (next_blob strict) src bls (Ret [])) /\
  ((4 <= length tail)%nat -> no_frame tail -> Runs (next_blob strict) src bls Panic).
Proof.
  intros Hb -> F. pose proof Hb as Hb'. apply Forall_app in Hb' as (_ & Ht). split.
  - intros L. rewrite <- (app_nil_r bls). eapply framed_runs; [exact F|exact Hb|]. apply Runs_end. now apply cut_short.
  - intros L N. rewrite <- (app_nil_r bls). eapply framed_runs; [exact F|exact Hb|]. apply Runs_panic. now apply no_frame_panics.
Qed.

(** The blobs found in any bytes: reading ends after the frames when fewer than four
    bytes are left, and panics when more are left that do not begin with a frame. *)
Theorem C102_frames : forall src, Forall byte src ->
  (exists bls r, Runs (next_blob strict) src bls r) /\
  (forall bls, (exists e, Runs (next_blob strict) src bls (Ret e)) <->
     exists pieces tail, src = pieces ++ tail /\ framed bls pieces /\ (length tail < 4)%nat) /\
  (forall bls, Runs (next_blob strict) src bls Panic <->
     exists pieces tail, src = pieces ++ tail /\ framed bls pieces /\ (4 <= length tail)%nat /\ no_frame tail).
Proof.
  intros src Hb. destruct (split_frames (length src) src (le_n _) Hb) as (bls & pieces & tail & E & F & C).
  destruct (framed_run src bls pieces tail Hb E F) as (R1 & R2). split; [|split].
  - destruct C as [C|(C & N)]; eauto.
  - intros bls'. split.
    + intros (e & R). destruct C as [C|(C & N)].
      * destruct (Runs_det _ _ _ _ R _ _ (R1 C)) as (-> & _). now exists pieces, tail.
      * destruct (Runs_det _ _ _ _ R _ _ (R2 C N)) as (_ & X). discriminate.
    + intros (p & t & E' & F' & L). exists []. exact (proj1 (framed_run src bls' p t Hb E' F') L).
  - intros bls'. split.
    + intros R. destruct C as [C|(C & N)].
      * destruct (Runs_det _ _ _ _ R _ _ (R1 C)) as (_ & X). discriminate.
      * destruct (Runs_det _ _ _ _ R _ _ (R2 C N)) as (-> & _). now exists pieces, tail.
    + intros (p & t & E' & F' & L & N). exact (proj2 (framed_run src bls' p t Hb E' F') L N).
Qed.
Print Assumptions C102_frames.

(** ** Objects *)

Lemma meta_flag user o id m : obj_meta s_deleted user o id = Ret m -> exists inf, o = Some inf /\ (i_visible inf = None -> m_deleted m = true).
Proof.
  intros H. apply obj_meta_inv in H as (ts & cs & uid & sid & name & v & dl & H). cbv zeta in H.
  destruct H as (E1 & _ & _ & _ & _ & _ & E7 & ->). destruct o as [inf|]; [|discriminate]. cbn [unwrap_or] in E7. exists inf. split; [reflexivity|].
  intros N. rewrite N in E7. injection E7 as <-. reflexivity.
Qed.
Lemma s_way_flag chk st p o : s_decode_way chk st p = Ret o -> flag_read (pw_info p) o.
Proof. unfold s_decode_way. intros H. binds H. injection H as <-. eapply meta_flag; eassumption. Qed.
Lemma s_rel_flag chk st p o : s_decode_rel chk st p = Ret o -> flag_read (pr_info p) o.
Proof. unfold s_decode_rel. intros H. binds H. injection H as <-. eapply meta_flag; eassumption. Qed.

Lemma s_block_objs chk n w r data b os : parse_block strict data = Some b -> s_decode_block chk (OF n w r) b = Ret os ->
  s_objs chk n w r b os.
Proof.
  intros Hp H. pose proof (block_range _ _ _ Hp) as (Ok & _). pose proof (parsed_init _ _ _ Hp) as Hin.
  unfold s_decode_block in H. destruct (pb_strings b) as [raw|] eqn:Er; [|discriminate]. cbn [unwrap obind] in H.
  destruct (pb_groups b) as [|g [|g1 gs]] eqn:Eg; try discriminate. exists raw, g. split; [exact Er|]. split; [exact Eg|].
  apply Forall_inv in Ok as (_ & Od & Ow & Or & _). destruct (init_group b g Hin) as (_ & Hi); [rewrite Eg; now left|].
  unfold s_decode_group in H. cbv zeta in H. cbn [f_nodes f_ways f_rels] in H.
  destruct (nonempty (pg_nodes g) && n); [discriminate|]. split; [|split; [|split]].
  - intros d -> Hd. rewrite Hd in H, Od. cbn [is_some andb unwrap_or] in H. destruct (s_strings raw) as [st|] eqn:Es; [|discriminate].
    cbn [obind] in H. eapply s_dense_read; eassumption.
  - intros Hn -> Hw. replace (is_some (pg_dense g) && n) with false in H by (destruct Hn as [->| ->]; [now rewrite andb_false_r|reflexivity]).
    destruct (nonempty (pg_ways g)) eqn:N; [|destruct (pg_ways g); [contradiction|discriminate]]. cbn [andb] in H.
    destruct (s_strings raw) as [st|] eqn:Es; [|discriminate]. cbn [obind] in H. apply omapM_inv in H.
    eapply Forall2_with; [|exact Ow|exact H]. intros p o Hok Ho. split; [exact (proj1 (s_way_read _ _ _ _ _ Es Hok Ho))|exact (s_way_flag _ _ _ _ Ho)].
  - intros Hn Hw ->. replace (is_some (pg_dense g) && n) with false in H by (destruct Hn as [->| ->]; [now rewrite andb_false_r|reflexivity]).
    replace (nonempty (pg_ways g) && w) with false in H by (destruct Hw as [->| ->]; [now rewrite andb_false_r|reflexivity]).
    destruct (pg_rels g) as [|p ps]; [injection H as <-; constructor|]. cbn [nonempty andb] in H.
    destruct (s_strings raw) as [st|] eqn:Es; [|discriminate]. cbn [obind] in H. apply omapM_inv in H.
    eapply Forall2_with2; [|exact Or|exact Hi|exact H]. intros q o Hok Hid Ho. split; [exact (proj1 (s_rel_read _ _ _ _ _ Es Hok Hid Ho))|exact (s_rel_flag _ _ _ _ Ho)].
  - intros Hn Hw ->. replace (is_some (pg_dense g) && n) with false in H by (destruct Hn as [->| ->]; [now rewrite andb_false_r|reflexivity]).
    replace (nonempty (pg_ways g) && w) with false in H by (destruct Hw as [->| ->]; [now rewrite andb_false_r|reflexivity]).
    rewrite andb_false_r in H. now injection H as <-.
Qed.

Lemma a_block_objs chk data b os : parse_block strict data = Some b -> a_decode_block chk b = Ret os -> a_objs chk b os.
Proof.
  intros Hp H. pose proof (parsed_init _ _ _ Hp) as Hin. destruct (pb_strings b) as [raw|] eqn:Er.
  2: { unfold pb_init in Hin. rewrite Er in Hin. discriminate. }
  exists raw. split; [exact Er|]. intros Ht. apply (decoded_groups strict chk b raw). split; [now exists data|]. split; [exact Er|].
  right. split; [exact Ht|]. now exists os.
Qed.

Lemma p_loop_inv chk gran lato lono d : Forall in_i64 (dn_lat d) -> Forall in_i64 (dn_lon d) -> forall n i s l, (i + n = length (dn_id d))%nat ->
  place_pre chk d i s -> dense_loop (p_dense_step chk gran lato lono d) n i s = Ret l -> length l = n /\
  forall k id la lo, nth_error l k = Some (id, (la, lo)) -> as64 chk (sum_to (i + k) (dn_id d)) id /\
    pos_read gran lato (sum_to (i + k) (dn_lat d)) la /\ pos_read gran lono (sum_to (i + k) (dn_lon d)) lo.
Proof.
  intros Hla Hlo. induction n as [|n IH]; intros i s l Hi V H; cbn [dense_loop] in H.
  - injection H as <-. split; [reflexivity|]. intros [|k]; discriminate.
  - destruct (p_dense_step chk gran lato lono d i s) as [[a s']|] eqn:E; [|discriminate]. cbn [obind] in H.
    destruct (dense_loop _ n (S i) s') as [l'|] eqn:El; [|discriminate]. injection H as <-.
    pose proof (proj2 (p_step_succ chk gran lato lono d i s Hla Hlo ltac:(lia) V) a s' E) as V'.
    destruct (IH (S i) s' l' ltac:(lia) V' El) as (L & P). split; [cbn; lia|]. intros [|k] id la lo Hk.
    + injection Hk as ->. rewrite Nat.add_0_r. unfold p_dense_step in E. binds E. injection E as -> -> -> <-. destruct V' as [V1 (V2 & V2') (V3 & V3')].
      cbn [last_id last_lat last_lon] in *. unfold sum_to. rewrite <- V2, <- V3. split; [now apply as64_of|].
      split; eapply internal_read; eassumption.
    + cbn [nth_error] in Hk. replace (i + S k)%nat with (S i + k)%nat by lia. now apply P.
Qed.

Lemma p_block_objs chk data b os : parse_block strict data = Some b -> p_decode_block chk b = Ret os -> p_objs chk b os.
Proof.
  intros Hp H. pose proof (block_range _ _ _ Hp) as (Ok & _). unfold p_decode_block in H.
  destruct (omapM _ (pb_groups b)) as [ls|] eqn:E; [|discriminate]. injection H as <-. exists ls. split; [reflexivity|]. apply omapM_inv in E.
  eapply Forall2_with; [|exact Ok|exact E]. intros g l (_ & Od & _) Hg. unfold p_decode_group in Hg.
  destruct (nonempty (pg_nodes g)); [discriminate|]. split.
  - intros [N|N]; destruct (pg_ways g), (pg_rels g); cbn [nonempty orb] in Hg; try contradiction; now injection Hg as <-.
  - intros Ew Er. rewrite Ew, Er in Hg. cbn [nonempty orb] in Hg. destruct (pg_dense g) as [d|]; [|discriminate].
    exists d. split; [reflexivity|]. destruct Od as (_ & _ & Hla & Hlo & _).
    destruct (p_loop_inv chk (gran_of b) (lat_off_of b) (lon_off_of b) d Hla Hlo (length (dn_id d)) 0 (ds0 []) l eq_refl) as (L & P).
    + split; cbn; [easy| |]; split; try easy; unfold in_i32; lia.
    + exact Hg.
    + split; [exact L|]. intros i id la lo Hi. exact (P i id la lo Hi).
Qed.

(** ** Blobs *)

Lemma payload_bytes fs bs : message_bytes fs bs -> Forall byte bs -> forall t b, In (t, WLen b) fs -> Forall byte b.
Proof.
  intros (_ & parts & -> & F) Hb. induction F as [|f p fs ps Hf _ IH]; intros t b Hi; [contradiction|].
  cbn [concat] in Hb. apply Forall_app in Hb as (Hb1 & Hb2). destruct Hi as [->|Hi]; [|eapply IH; eassumption].
  inversion Hf; subst. apply Forall_app in Hb1 as (_ & Hb1). now apply Forall_app in Hb1.
Qed.

Lemma framed_raw bls pieces : framed bls pieces -> Forall byte pieces -> Forall (fun bl => forall raw, bl_raw bl = Some raw -> Forall byte raw) bls.
Proof.
  induction 1 as [|h bl body bs bls rest Hf Ht Hbl _ IH|h body bs bls rest Hf Ht _ IH]; intros Hb; [constructor| |];
    apply Forall_app in Hb as (Hb1 & Hb2); [|now apply IH]. constructor; [|now apply IH]. intros raw Hr.
  destruct Hbl as (bf & M & (E & _)). rewrite Hr in E. cbn [blob_field] in E. destruct E as (pre & x & E & -> & _).
  eapply (payload_bytes bf body M (frame_body _ _ _ Hf Hb1) (8 * 1 + 2)).
  assert (In (8 * 1 + 2, WLen x) (typed 1 [2] bf)) as Hi by (rewrite E; apply in_app_iff; right; now left). now apply filter_In in Hi.
Qed.

(** Decompression yields bytes. *)
Definition inflates_bytes (inflate : bytes -> option bytes) : Prop := forall z d, inflate z = Some d -> Forall byte d.

Lemma s_data_bytes inflate bl d : inflates_bytes inflate -> s_data inflate bl d -> Forall byte d.
Proof. intros Hi [(_ & ->)|[(_ & z & _ & E)|(_ & _ & ->)]]; [constructor|eapply Hi; exact E|constructor]. Qed.
Lemma a_data_bytes inflate bl d : inflates_bytes inflate -> (forall raw, bl_raw bl = Some raw -> Forall byte raw) -> a_data inflate bl d -> Forall byte d.
Proof. intros Hi Hr [E|(_ & z & n & _ & _ & _ & E)]; [now apply Hr|eapply Hi; exact E]. Qed.

Lemma block_bytes_iff d b : Forall byte d -> (block_bytes b d <-> parse_block strict d = Some b).
Proof. intros H. symmetry. now apply parse_block_iff. Qed.

Lemma holds_iff (data : blob -> bytes -> Prop) P bl : (forall d, data bl d -> Forall byte d) -> (holds_block data P bl <-> holds strict data P bl).
Proof.
  intros H. unfold holds_block, holds. split; intros (d & b & H1 & H2 & H3); exists d, b; (split; [exact H1|]); (split; [|exact H3]); apply (block_bytes_iff d b (H d H1)); exact H2.
Qed.
Lemma s_blob_gives chk inflate n w r bl l : inflates_bytes inflate -> s_blob strict chk inflate (OF n w r) bl = Ret l ->
  gives_none_or (s_data inflate) (s_objs chk n w r) bl l.
Proof.
  intros Hi H. unfold s_blob in H. destruct (s_blob_data inflate bl) as [d|] eqn:E; [|discriminate]. cbn [obind] in H. apply s_content_iff in E.
  destruct d as [|x d]; [injection H as <-; now left|]. right. destruct (parse_block strict (x :: d)) as [b|] eqn:P; [|discriminate]. cbn [unwrap obind] in H.
  exists (x :: d), b. split; [exact E|]. split; [apply block_bytes_iff; [exact (s_data_bytes _ _ _ Hi E)|exact P]|]. eapply s_block_objs; eassumption.
Qed.
Lemma a_blob_gives chk inflate bl l : inflates_bytes inflate -> (forall raw, bl_raw bl = Some raw -> Forall byte raw) -> a_blob strict chk inflate bl = Ret l ->
  holds_block (a_data inflate) (fun b => a_objs chk b l) bl.
Proof.
  intros Hi Hr H. unfold a_blob in H. destruct (a_blob_data inflate bl) as [d|] eqn:E; [|discriminate]. cbn [obind] in H. apply a_content_iff in E.
  destruct (parse_block strict d) as [b|] eqn:P; [|discriminate]. cbn [unwrap obind] in H.
  exists d, b. split; [exact E|]. split; [apply block_bytes_iff; [exact (a_data_bytes _ _ _ Hi Hr E)|exact P]|]. eapply a_block_objs; eassumption.
Qed.
Lemma p_blob_gives chk inflate bl l : inflates_bytes inflate -> p_blob strict chk inflate bl = Ret l ->
  holds_block (s_data inflate) (fun b => p_objs chk b l) bl.
Proof.
  intros Hi H. unfold p_blob in H. destruct (s_blob_data inflate bl) as [d|] eqn:E; [|discriminate]. cbn [obind] in H. apply s_content_iff in E.
  destruct (parse_block strict d) as [b|] eqn:P; [|discriminate]. cbn [unwrap obind] in H.
  exists d, b. split; [exact E|]. split; [apply block_bytes_iff; [exact (s_data_bytes _ _ _ Hi E)|exact P]|]. eapply p_block_objs; eassumption.
Qed.

(** ** Files *)

Lemma exact_reading {St A} (next : St -> outcome (option A * St)) start (fin : bytes * list A -> St) (decode : blob -> outcome (list A))
    (accepted : blob -> Prop) (gives : blob -> list A -> Prop) (whole : Prop) src bls r :
  Runs (next_blob strict) src bls r -> (whole -> exists e, r = Ret e) -> (~ whole -> r = Panic) ->
  (forall l x, Runs (buf_next strict decode) (src, []) l x -> Runs next start l (match x with Ret s => Ret (fin s) | Panic => Panic end)) ->
  Forall (fun bl => succ (decode bl) <-> accepted bl) bls -> Forall (fun bl => forall l, decode bl = Ret l -> gives bl l) bls ->
  reads_exactly next start accepted gives whole bls.
Proof.
  intros R W1 W2 N Ac Gv.
  assert (G : forall bs ls, (forall b, In b bs -> In b bls) -> Forall2 (fun b l => decode b = Ret l) bs ls -> Forall2 gives bs ls).
  { intros bs ls Hin F. eapply Forall2_both with (P := fun b => In b bls); [|exact Hin|exact F].
    intros b l Hb E. rewrite Forall_forall in Gv. now apply Gv. }
  assert (D : forall bs, (forall b, In b bs -> In b bls) -> Forall accepted bs -> exists ls, Forall2 (fun b l => decode b = Ret l) bs ls).
  { intros bs Hin F. induction F as [|b bs Hb _ IH]; [exists []; constructor|]. rewrite Forall_forall in Ac.
    apply (Ac b) in Hb as (l & E); [|apply Hin; now left]. destruct IH as (ls & F); [intros c Hc; apply Hin; now right|]. exists (l :: ls). now constructor. }
  split; [|split].
  - destruct (split_first decode accepted bls Ac) as [(F & _)|(bls1 & bl & bls2 & _ & E & F & Nb & _)]; [now left|right; now exists bls1, bl, bls2].
  - intros F. destruct (D bls (fun b H => H) F) as (ls & Ls). exists ls. split; [now apply G|].
    pose proof (N _ _ (runs_buffered strict decode src bls r R ls [] Ls)) as R'. cbn [app] in R'. split.
    + intros Hw. destruct (W1 Hw) as (e & ->). eexists. exact R'.
    + intros Hw. rewrite (W2 Hw) in R'. exact R'.
  - intros bls1 bl bls2 -> F Nb. assert (Hin : forall b, In b bls1 -> In b (bls1 ++ bl :: bls2)) by (intros b Hb; apply in_app_iff; now left).
    destruct (D bls1 Hin F) as (ls & Ls). exists ls. split; [now apply G|].
    assert (P : decode bl = Panic).
    { destruct (decode bl) as [l|] eqn:E; [|reflexivity]. exfalso. apply Nb. rewrite Forall_forall in Ac. apply Ac; [apply in_app_iff; right; now left|now exists l]. }
    exact (N _ _ (runs_buffered_panic strict decode src bls1 bl bls2 r R P ls [] Ls)).
Qed.

(** What each reader makes of any bytes, which are frames holding the data blobs [bls]
    and a rest that does not begin with a frame: *)
Theorem C102_files : forall (chk : build) inflate nodes ways rels src bls pieces tail, Forall byte src -> inflates_bytes inflate ->
  src = pieces ++ tail -> framed bls pieces -> (length tail < 4)%nat \/ no_frame tail ->
  let whole := (length tail < 4)%nat in
  reads_exactly (s_next strict chk inflate) (s_set_filter (OF nodes ways rels) (s_new src))
    (empty_or_block (s_data inflate) (s_accepted chk nodes ways rels)) (gives_none_or (s_data inflate) (s_objs chk nodes ways rels)) whole bls /\
  reads_exactly (a_next strict chk inflate) (src, [])
    (holds_block (a_data inflate) (a_accepted chk)) (fun bl l => holds_block (a_data inflate) (fun b => a_objs chk b l) bl) whole bls /\
  reads_exactly (p_next strict chk inflate) (src, [])
    (holds_block (s_data inflate) (p_accepted chk)) (fun bl l => holds_block (s_data inflate) (fun b => p_objs chk b l) bl) whole bls.
Proof.
  intros chk inflate n w r src bls pieces tail Hb Hi E F T whole.
  assert (R : exists x, Runs (next_blob strict) src bls x /\ (whole -> exists e, x = Ret e) /\ (~ whole -> x = Panic)).
  { destruct (framed_run src bls pieces tail Hb E F) as (R1 & R2). destruct (Nat.lt_ge_cases (length tail) 4) as [L|L].
    - exists (Ret []). split; [now apply R1|]. split; [intros _; now exists []|]. intros N. now elim N.
    - destruct T as [T|T]; [lia|]. exists Panic. split; [now apply R2|]. split; [|easy]. unfold whole. lia. }
  destruct R as (x & R & W1 & W2).
  assert (Raw : Forall (fun bl => forall raw, bl_raw bl = Some raw -> Forall byte raw) bls).
  { subst src. apply Forall_app in Hb as (Hb & _). eapply framed_raw; eassumption. }
  split; [|split].
  - eapply (exact_reading _ _ (fun s => SReader (fst s) (snd s) (OF n w r)) (s_blob strict chk inflate (OF n w r)) _ _ whole src bls x R W1 W2).
    + intros l y H. now apply s_next_runs in H.
    + apply Forall_forall. intros bl _. rewrite s_blob_succ.
      unfold s_blob_accepted, empty_or_block. rewrite holds_iff by (intros d; now apply s_data_bytes). reflexivity.
    + apply Forall_forall. intros bl _ l. now apply s_blob_gives.
  - eapply (exact_reading _ _ (fun p => (fst p, rev (snd p))) (a_blob strict chk inflate) _ _ whole src bls x R W1 W2).
    + intros l y H. now apply a_next_runs in H.
    + apply Forall_forall. intros bl Hbl. rewrite Forall_forall in Raw. rewrite a_blob_succ.
      rewrite holds_iff by (intros d; apply a_data_bytes; [exact Hi|now apply Raw]). reflexivity.
    + apply Forall_forall. intros bl Hbl l. rewrite Forall_forall in Raw. apply a_blob_gives; [exact Hi|now apply Raw].
  - eapply (exact_reading _ _ (fun p => p) (p_blob strict chk inflate) _ _ whole src bls x R W1 W2).
    + intros l y H. now destruct y.
    + apply Forall_forall. intros bl _. rewrite p_blob_succ. rewrite holds_iff by (intros d; now apply s_data_bytes). reflexivity.
    + apply Forall_forall. intros bl _ l. now apply p_blob_gives.
Qed.
Print Assumptions C102_files.

(** A header frame, a frame with the block of C74_example, and three bytes more: all is
    read.  With a fourth byte the readers panic after the objects of the block. *)
Definition ex_inflate (z : bytes) : option bytes := if forallb (fun x => (0 <=? x) && (x <? 256)) z then Some z else None.
Definition ex_head : bytes := [0; 0; 0; 13; 10; 9; 79; 83; 77; 72; 101; 97; 100; 101; 114; 24; 0].
Definition ex_blob : blob := Blob None (Some 49) (Some odd_block_bytes) None None.
Example C102_example : Forall byte (ex_head ++ odd_piece) /\ inflates_bytes ex_inflate /\ framed [ex_blob] (ex_head ++ odd_piece) /\
  no_frame [0; 0; 0; 1] /\ block_bytes odd_block odd_block_bytes /\
  empty_or_block (s_data ex_inflate) (s_accepted (plain true) true true true) ex_blob /\
  (exists e, Runs (s_next strict (plain true) ex_inflate) (s_new ((ex_head ++ odd_piece) ++ [0; 0; 0])) [odd_obj] (Ret e)) /\
  Runs (s_next strict (plain true) ex_inflate) (s_new ((ex_head ++ odd_piece) ++ [0; 0; 0; 1])) [odd_obj] Panic.
Proof.
  assert (V : forall s, forallb (fun x => (0 <=? x) && (x <? 256)) s = true -> Forall byte s).
  { intros s H. apply Forall_forall. intros x Hx. rewrite forallb_forall in H. specialize (H x Hx). unfold byte. lia. }
  assert (B : Forall byte (ex_head ++ odd_piece)) by (apply V; reflexivity).
  assert (Bb : Forall byte odd_block_bytes) by (apply V; reflexivity).
  assert (I : inflates_bytes ex_inflate).
  { intros z d H. unfold ex_inflate in H. destruct (forallb _ z) eqn:E; [|discriminate]. injection H as <-. now apply V. }
  assert (P : parse_block strict odd_block_bytes = Some odd_block) by (vm_compute; reflexivity).
  assert (F : framed [ex_blob] (ex_head ++ odd_piece)).
  { assert (O1 : one_frame ex_head = Ret (BlobHeader (Some (lit "OSMHeader")) None (Some 0), [], [])) by (vm_compute; reflexivity).
    assert (O2 : one_frame odd_piece = Ret (BlobHeader (Some (lit "OSMData")) None (Some 53), [16; 49; 26; 49] ++ odd_block_bytes, [])) by (vm_compute; reflexivity).
    apply one_frame_iff in O1 as (bs1 & E1 & O1); [|apply V; reflexivity]. apply one_frame_iff in O2 as (bs2 & E2 & O2); [|apply V; reflexivity].
    rewrite app_nil_r in E1, E2. subst bs1 bs2. eapply framed_other; [exact O1|discriminate|]. rewrite <- (app_nil_r odd_piece).
    eapply framed_data; [exact O2|reflexivity| |constructor]. apply parse_blob_iff; [apply V; reflexivity|]. vm_compute. reflexivity. }
  split; [exact B|]. split; [exact I|]. split; [exact F|]. split.
  { intros h body bs rest E Hf. exfalso. assert (O : one_frame [0; 0; 0; 1] = Ret (h, body, rest)).
    { apply one_frame_iff; [apply V; reflexivity|]. now exists bs. }
    vm_compute in O. discriminate. }
  split; [now apply block_bytes_iff|].
  split.
  { right. exists odd_block_bytes, odd_block. split; [right; left; split; [reflexivity|]; now exists odd_block_bytes|].
    split; [now apply block_bytes_iff|]. apply (C101_string strict (plain true) true true true odd_block_bytes _ P).
    eexists. vm_compute. reflexivity. }
  split.
  - eexists. eapply Runs_step; [vm_compute; reflexivity|]. apply Runs_end. vm_compute. reflexivity.
  - eapply Runs_step; [vm_compute; reflexivity|]. apply Runs_panic. vm_compute. reflexivity.
Qed.
