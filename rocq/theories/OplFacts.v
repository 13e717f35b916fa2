(** Facts about the OPL functions. *)
From Coq Require Import String ZArith List Bool Lia.
From Coq Require Import ZifyBool ZifyNat.
From Verif Require Import Base SpecNum Ints Utf8 Opl.
Import ListNotations.
Open Scope Z_scope.

Lemma split_on_nosep c s : ~ In c s -> split_on c s = [s].
Proof.
  induction s as [|x s IH]; intros H; [reflexivity|]. cbn [split_on]. cbn [In] in H.
  replace (x =? c) with false by (assert (x <> c) by tauto; lia). rewrite IH by tauto. reflexivity.
Qed.
Lemma split_on_app c a s : ~ In c a -> split_on c (a ++ c :: s) = a :: split_on c s.
Proof.
  induction a as [|x a IH]; intros H.
  - cbn [app split_on]. rewrite Z.eqb_refl. reflexivity.
  - cbn [app split_on]. cbn [In] in H. replace (x =? c) with false by (assert (x <> c) by tauto; lia).
    rewrite IH by tauto. reflexivity.
Qed.
Lemma split_on_join c l : l <> [] -> Forall (fun s => ~ In c s) l -> split_on c (join [c] l) = l.
Proof.
  intros Hn HF. induction HF as [|s l Hs HF IH]; [congruence|].
  destruct l as [|s2 l]; [apply split_on_nosep; exact Hs|].
  change (join [c] (s :: s2 :: l)) with (s ++ c :: join [c] (s2 :: l)).
  rewrite split_on_app by exact Hs. rewrite IH by discriminate. reflexivity.
Qed.
Lemma split_on_pieces c s : Forall (fun p => ~ In c p) (split_on c s) /\ split_on c s <> [].
Proof.
  induction s as [|x s [HF HN]]; [split; [constructor; [easy|constructor]|discriminate]|].
  cbn [split_on]. destruct (x =? c) eqn:E; [split; [constructor; [easy|exact HF]|discriminate]|].
  destruct (split_on c s) as [|w ws]; [congruence|]. inversion HF as [|? ? H1 H2]; subst.
  split; [constructor; [intros [->|Hi]; [lia|auto]|exact H2]|discriminate].
Qed.

Lemma splitn2_app c a s : ~ In c a -> splitn2 c (a ++ c :: s) = (a, Some s).
Proof.
  induction a as [|x a IH]; intros H.
  - cbn [app splitn2]. rewrite Z.eqb_refl. reflexivity.
  - cbn [app splitn2]. cbn [In] in H. replace (x =? c) with false by (assert (x <> c) by tauto; lia).
    rewrite IH by tauto. reflexivity.
Qed.
Lemma splitn2_none c a : ~ In c a -> splitn2 c a = (a, None).
Proof.
  induction a as [|x a IH]; intros H; [reflexivity|]. cbn [splitn2]. cbn [In] in H.
  replace (x =? c) with false by (assert (x <> c) by tauto; lia). rewrite IH by tauto. reflexivity.
Qed.
Lemma splitn2_some c a : In c a -> exists p q, splitn2 c a = (p, Some q).
Proof.
  induction a as [|x a IH]; intros H; [destruct H|]. cbn [splitn2].
  destruct (x =? c) eqn:E; [eauto|]. destruct H as [->|H]; [lia|].
  destruct (IH H) as (p & q & ->). eauto.
Qed.

Lemma in_join c sep l : In c (join sep l) -> In c sep \/ exists s, In s l /\ In c s.
Proof.
  induction l as [|s l IH]; [easy|]. destruct l as [|s2 l].
  - intros H. right. exists s. split; [left; reflexivity|exact H].
  - change (join sep (s :: s2 :: l)) with (s ++ sep ++ join sep (s2 :: l)).
    rewrite !in_app_iff. intros [H|[H|H]]; [right; exists s; split; [now left|exact H]|now left|].
    destruct (IH H) as [H'|(s' & H1 & H2)]; [now left|right; exists s'; split; [now right|exact H2]].
Qed.

(** ** Strings *)

(** What encode_string does to each character. *)
Definition enc_char (c : char) : str :=
  if c =? 32 then [37; 50; 48; 37] else if c =? 10 then [37; 65; 37] else if c =? 44 then [37; 50; 67; 37]
  else if c =? 61 then [37; 51; 68; 37] else if c =? 64 then [37; 52; 48; 37] else [c].

Lemma replace_app c w a b : replace c w (a ++ b) = replace c w a ++ replace c w b.
Proof. apply flat_map_app. Qed.

Lemma encode_string_chars s : encode_string s = flat_map enc_char s.
Proof.
  unfold encode_string. cbn [fold_left]. induction s as [|c s IH]; [reflexivity|].
  change (c :: s) with ([c] ++ s). rewrite !replace_app, IH, flat_map_app. f_equal. clear.
  cbn [flat_map]. rewrite app_nil_r. unfold enc_char.
  destruct (c =? 32) eqn:E1; [assert (c = 32) by lia; subst; reflexivity|].
  destruct (c =? 10) eqn:E2; [assert (c = 10) by lia; subst; reflexivity|].
  destruct (c =? 44) eqn:E3; [assert (c = 44) by lia; subst; reflexivity|].
  destruct (c =? 61) eqn:E4; [assert (c = 61) by lia; subst; reflexivity|].
  destruct (c =? 64) eqn:E5; [assert (c = 64) by lia; subst; reflexivity|].
  unfold replace. cbn [flat_map app]. rewrite E1. cbn [flat_map app]. rewrite E2. cbn [flat_map app]. rewrite E3.
  cbn [flat_map app]. rewrite E4. cbn [flat_map app]. rewrite E5. reflexivity.
Qed.

(** The five characters. *)
Definition special (c : char) : Prop := c = 32 \/ c = 10 \/ c = 44 \/ c = 61 \/ c = 64.

Lemma encode_no_special s c : special c -> ~ In c (encode_string s).
Proof.
  intros Hc. rewrite encode_string_chars. rewrite in_flat_map. intros (x & _ & H). unfold enc_char in H. unfold special in Hc.
  destruct (x =? 32) eqn:E1; [cbn in H; lia|].
  destruct (x =? 10) eqn:E2; [cbn in H; lia|].
  destruct (x =? 44) eqn:E3; [cbn in H; lia|].
  destruct (x =? 61) eqn:E4; [cbn in H; lia|].
  destruct (x =? 64) eqn:E5; [cbn in H; lia|]. cbn in H. lia.
Qed.

Lemma encode_plain s : (forall c, In c s -> ~ special c) -> encode_string s = s.
Proof.
  rewrite encode_string_chars. induction s as [|c s IH]; intros H; [reflexivity|].
  cbn [flat_map]. rewrite IH by (intros x Hx; apply H; now right).
  assert (Hc := H c (or_introl eq_refl)). unfold special in Hc. unfold enc_char.
  replace (c =? 32) with false by lia. replace (c =? 10) with false by lia. replace (c =? 44) with false by lia.
  replace (c =? 61) with false by lia. replace (c =? 64) with false by lia. reflexivity.
Qed.

Lemma dec_encode s r : ~ In 37 s -> dec_str None (encode_string s ++ r) = opt_map (app s) (dec_str None r).
Proof.
  rewrite encode_string_chars. induction s as [|c s IH]; intros H.
  - cbn [flat_map app]. destruct (dec_str None r); reflexivity.
  - cbn [flat_map]. rewrite <- app_assoc. cbn [In] in H.
    assert (E : dec_str None (enc_char c ++ flat_map enc_char s ++ r) = opt_map (cons c) (dec_str None (flat_map enc_char s ++ r))).
    { unfold enc_char.
      destruct (c =? 32) eqn:E1; [assert (c = 32) by lia; subst; reflexivity|].
      destruct (c =? 10) eqn:E2; [assert (c = 10) by lia; subst; reflexivity|].
      destruct (c =? 44) eqn:E3; [assert (c = 44) by lia; subst; reflexivity|].
      destruct (c =? 61) eqn:E4; [assert (c = 61) by lia; subst; reflexivity|].
      destruct (c =? 64) eqn:E5; [assert (c = 64) by lia; subst; reflexivity|].
      cbn [app dec_str]. replace (c =? 37) with false by (assert (c <> 37) by tauto; lia). reflexivity. }
    rewrite E, IH by tauto. destruct (dec_str None r); reflexivity.
Qed.
Lemma decode_encode s : ~ In 37 s -> decode_string (encode_string s) = Some s.
Proof.
  intros H. unfold decode_string. rewrite <- (app_nil_r (encode_string s)). rewrite dec_encode by exact H.
  cbn [dec_str opt_map]. now rewrite app_nil_r.
Qed.

(** After an unclosed percent sign the rest is lost. *)
Lemma dec_lost s : forall b, ~ In 37 s -> dec_str (Some b) s = Some [].
Proof.
  induction s as [|c s IH]; intros b H; [reflexivity|]. cbn [dec_str]. cbn [In] in H.
  replace (c =? 37) with false by (assert (c <> 37) by tauto; lia). apply IH. tauto.
Qed.

(** ** Tags *)

Lemma map_get_insert k v m k' : map_get k' (map_insert k v m) = if str_eqb k' k then Some v else map_get k' m.
Proof.
  induction m as [|[a b] m IH]; cbn [map_insert map_get]; [reflexivity|].
  destruct (str_eqb k a) eqn:E; cbn [map_get].
  - apply str_eqb_eq in E. subst a. destruct (str_eqb k' k); reflexivity.
  - rewrite IH. destruct (str_eqb k' a) eqn:E2; [|reflexivity].
    apply str_eqb_eq in E2. subst k'. rewrite str_eqb_sym in E. now rewrite E.
Qed.
Lemma map_insert_fresh k v m : ~ In k (map fst m) -> map_insert k v m = m ++ [(k, v)].
Proof.
  induction m as [|[a b] m IH]; intros H; [reflexivity|]. cbn [map_insert map fst In app] in *.
  destruct (str_eqb k a) eqn:E; [apply str_eqb_eq in E; subst; tauto|]. rewrite IH by tauto. reflexivity.
Qed.

Definition tag_text (kv : str * str) : str := encode_string (fst kv) ++ [61] ++ encode_string (snd kv).
Definition no_percent (kv : str * str) : Prop := ~ In 37 (fst kv) /\ ~ In 37 (snd kv).

Lemma dec_tags_encoded l : forall m, Forall no_percent l -> NoDup (map fst (m ++ l)) ->
  dec_tags m (map tag_text l) = Ret (Some (m ++ l)).
Proof.
  induction l as [|[k v] l IH]; intros m HF Hd; [cbn; now rewrite app_nil_r|].
  inversion HF as [|? ? [H1 H2] HF']; subst. cbn [fst snd] in *.
  cbn [map dec_tags]. unfold tag_text at 1. cbn [fst snd app].
  rewrite splitn2_app by (apply encode_no_special; unfold special; lia).
  rewrite decode_encode by exact H1. cbn [rbind unwrap obind]. rewrite decode_encode by exact H2. cbn [rbind].
  rewrite map_insert_fresh.
  - rewrite IH; [now rewrite <- app_assoc|exact HF'|now rewrite <- app_assoc].
  - rewrite map_app in Hd. cbn [map fst] in Hd. apply NoDup_remove_2 in Hd. rewrite in_app_iff in Hd. tauto.
Qed.

Lemma decode_tags_encoded l : Forall no_percent l -> NoDup (map fst l) -> decode_tags (encode_tags l) = Ret (Some l).
Proof.
  intros HF Hd. destruct l as [|kv l]; [reflexivity|]. unfold decode_tags.
  assert (E : exists x r, encode_tags (kv :: l) = x :: r).
  { unfold encode_tags. cbn [map join]. destruct l as [|kv2 l]; cbn [map join app].
    - destruct (encode_string (fst kv)); cbn [app]; eauto.
    - destruct (encode_string (fst kv)); cbn [app]; eauto. }
  destruct E as (x & r & E). rewrite E. rewrite <- E. clear E x r. unfold encode_tags.
  change (map (fun kv0 : list Z * list Z => encode_string (fst kv0) ++ [61] ++ encode_string (snd kv0)) (kv :: l)) with (map tag_text (kv :: l)).
  rewrite split_on_join.
  - apply (dec_tags_encoded (kv :: l) []); [exact HF|exact Hd].
  - discriminate.
  - apply Forall_forall. intros s Hs. apply in_map_iff in Hs. destruct Hs as ([k v] & <- & _). unfold tag_text.
    rewrite !in_app_iff. cbn [In]. intros [H|[H|H]]; [|lia|];
      (eapply encode_no_special; [|exact H]; unfold special; lia).
Qed.

Lemma encode_tags_chars l c : c <> 44 -> c <> 61 -> special c -> ~ In c (encode_tags l).
Proof.
  intros H1 H2 Hs H. unfold encode_tags in H. apply in_join in H. destruct H as [[H|[]]|(s & Hi & H)]; [lia|].
  apply in_map_iff in Hi. destruct Hi as ([k v] & <- & _). rewrite !in_app_iff in H. cbn [In fst snd] in H.
  destruct H as [H|[H|H]]; [|lia|]; now apply encode_no_special in H.
Qed.

(** ** Numbers *)

Lemma show_int_no n c : ~ is_digit c -> c <> 45 -> ~ In c (show_int n).
Proof. intros H1 H2 H. pose proof (show_int_chars n) as HF. rewrite Forall_forall in HF. specialize (HF c H). tauto. Qed.
Lemma show_uint_no n c : 0 <= n -> ~ is_digit c -> ~ In c (show_uint n).
Proof. intros Hn H1 H. pose proof (show_uint_chars n Hn) as HF. rewrite Forall_forall in HF. specialize (HF c H). tauto. Qed.

(** ** Way nodes and members *)

Lemma rmapM_ok {A B} (f : A -> result B) l : forall r, Forall2 (fun a b => f a = Ret (Some b)) l r ->
  rmapM f l = Ret (Some r).
Proof. intros r H. induction H as [|a b l r H1 H2 IH]; [reflexivity|]. cbn [rmapM]. rewrite H1. cbn [rbind]. fold (rmapM f). rewrite IH. reflexivity. Qed.

Lemma Forall2_map_l {A B C} (f : A -> B) (P : B -> C -> Prop) l r :
  Forall2 (fun a c => P (f a) c) l r -> Forall2 P (map f l) r.
Proof. induction 1; constructor; assumption. Qed.
Lemma Forall2_same {A} (P : A -> A -> Prop) l : (forall a, In a l -> P a a) -> Forall2 P l l.
Proof. induction l as [|a l IH]; intros H; constructor; [apply H; now left|apply IH; intros; apply H; now right]. Qed.

Lemma decode_way_nodes_encoded l : l <> [] -> Forall in_i64 l ->
  decode_way_nodes (encode_way_nodes l) = Ret (Some l).
Proof.
  intros Hn HF. unfold decode_way_nodes, encode_way_nodes. rewrite split_on_join.
  - apply rmapM_ok, Forall2_map_l. apply Forall2_same. intros n Hi. rewrite Forall_forall in HF.
    cbn [tl]. rewrite parse_show_i64 by auto. reflexivity.
  - destruct l; [congruence|discriminate].
  - apply Forall_forall. intros s Hs. apply in_map_iff in Hs. destruct Hs as (n & <- & _).
    cbn [In]. intros [H|H]; [lia|]. now apply show_int_no in H; unfold is_digit; try lia.
Qed.

Lemma utf8_len1 a : 0 <= a < 128 -> length (utf8_char a) = 1%nat.
Proof. intros H. unfold utf8_char. replace (a <? 128) with true by lia. reflexivity. Qed.

Lemma split_kv a r : 0 <= a < 128 -> split_key_value (a :: r) = Some ([a], r).
Proof.
  intros H. unfold split_key_value. change (a :: r) with ([a] ++ r). rewrite utf8_app, app_length.
  change (utf8 [a]) with (utf8_char a ++ []). rewrite app_nil_r, utf8_len1 by exact H.
  destruct r as [|b r]; [reflexivity|]. change (b :: r) with ([b] ++ r). rewrite utf8_app, app_length.
  change (utf8 [b]) with (utf8_char b ++ []). rewrite app_nil_r. pose proof (utf8_char_len b).
  replace (_ =? _)%nat with false by lia. reflexivity.
Qed.

(** Members that survive: a one-byte type other than ',', an id in range, a role
    without ','. *)
Definition member_ok (m : char * Z * str) : Prop :=
  let '(t, id, role) := m in 0 <= t < 128 /\ t <> 44 /\ in_i64 id /\ ~ In 44 role.

Lemma decode_members_encoded l : l <> [] -> Forall member_ok l ->
  decode_members (encode_members l) = Ret (Some l).
Proof.
  intros Hn HF. unfold decode_members, encode_members. rewrite split_on_join.
  - apply rmapM_ok, Forall2_map_l. apply Forall2_same. intros [[t id] role] Hi. rewrite Forall_forall in HF.
    destruct (HF _ Hi) as (Ht & Htc & Hid & Hr). unfold decode_member. rewrite split_kv by exact Ht. cbn [rbind hd_error].
    cbn [app]. rewrite splitn2_app by (apply show_int_no; unfold is_digit; lia). cbn [unwrap obind].
    rewrite parse_show_i64 by exact Hid. reflexivity.
  - destruct l; [congruence|discriminate].
  - apply Forall_forall. intros s Hs. apply in_map_iff in Hs. destruct Hs as ([[t id] role] & <- & Hi).
    rewrite Forall_forall in HF. destruct (HF _ Hi) as (Ht & Htc & Hid & Hr).
    cbn [In]. rewrite !in_app_iff. cbn [In]. intros [H|[H|[[H|[]]|H]]]; [lia| |lia|tauto].
    now apply show_int_no in H; unfold is_digit; try lia.
Qed.

(** ** Files *)

Lemma take_line_app l r : ~ In 10 l -> take_line (l ++ 10 :: r) = (l ++ [10], r).
Proof.
  induction l as [|x l IH]; intros H; [reflexivity|]. cbn [app take_line]. cbn [In] in H.
  replace (x =? 10) with false by (assert (x <> 10) by tauto; lia). rewrite IH by tauto. reflexivity.
Qed.

Lemma utf8_no10 s : valid_str s -> ~ In 10 s -> ~ In 10 (utf8 s).
Proof.
  induction 1 as [|c s Hc HF IH]; intros Hn; [easy|]. unfold utf8. cbn [flat_map]. fold (utf8 s). cbn [In] in Hn.
  rewrite in_app_iff. intros [H|H]; [|tauto]. unfold utf8_char in H. unfold scalar in Hc.
  destruct (c <? 128) eqn:E1; [cbn [In] in H; assert (c <> 10) by tauto; lia|].
  destruct (c <? 2048) eqn:E2; [cbn [In] in H; Z.div_mod_to_equations; lia|].
  destruct (c <? 65536) eqn:E3; cbn [In] in H; Z.div_mod_to_equations; lia.
Qed.
Lemma trim_end_nl s : trim_start (rev (s ++ [10])) = trim_start (rev s).
Proof. rewrite rev_app_distr. reflexivity. Qed.
