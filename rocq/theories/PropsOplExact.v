(** C51, C52 continued: exactly which strings, tags, way nodes and members survive in the
    OPL format. *)
From Coq Require Import String ZArith List Bool Lia Permutation.
From Coq Require Import ZifyBool ZifyNat.
From Verif Require Import Base SpecNum Ints Utf8 Opl OplFacts PropsOpl.
Import ListNotations.
Open Scope Z_scope.

(** ** Counting characters *)

Definition pct (s : str) : nat := length (filter (fun c => c =? 37) s).
Definition specialb (c : char) : bool := (c =? 32) || (c =? 10) || (c =? 44) || (c =? 61) || (c =? 64).
Definition spc (s : str) : nat := length (filter specialb s).

Lemma pct_cons c s : pct (c :: s) = ((if (c =? 37)%Z then 1 else 0) + pct s)%nat.
Proof. unfold pct. cbn [filter]. destruct (c =? 37)%Z; reflexivity. Qed.
Lemma spc_cons c s : spc (c :: s) = ((if specialb c then 1 else 0) + spc s)%nat.
Proof. unfold spc. cbn [filter]. destruct (specialb c); reflexivity. Qed.
Lemma pct_app a b : pct (a ++ b) = (pct a + pct b)%nat.
Proof. unfold pct. now rewrite filter_app, app_length. Qed.
Lemma pct_zero s : pct s = 0%nat <-> ~ In 37 s.
Proof.
  induction s as [|c s IH]; [cbn; tauto|]. rewrite pct_cons. cbn [In]. destruct (c =? 37) eqn:E; split; intros H; [lia|exfalso; apply H; left; lia|intros [->|Hi]; [lia|revert Hi; apply IH; lia]|].
  cbn. apply IH. tauto.
Qed.

(** Encoding a special character takes two percent signs. *)
Lemma pct_encode s : pct (encode_string s) = (pct s + 2 * spc s)%nat.
Proof.
  rewrite encode_string_chars. induction s as [|c s IH]; [reflexivity|]. cbn [flat_map]. rewrite pct_app, IH, pct_cons, spc_cons.
  unfold enc_char, specialb.
  destruct (c =? 32) eqn:E1; [replace (c =? 37) with false by lia; cbn; lia|].
  destruct (c =? 10) eqn:E2; [replace (c =? 37) with false by lia; cbn; lia|].
  destruct (c =? 44) eqn:E3; [replace (c =? 37) with false by lia; cbn; lia|].
  destruct (c =? 61) eqn:E4; [replace (c =? 37) with false by lia; cbn; lia|].
  destruct (c =? 64) eqn:E5; [replace (c =? 37) with false by lia; cbn; lia|].
  unfold pct at 1. cbn [filter orb]. destruct (c =? 37); cbn [length]; lia.
Qed.
(** Where no special character stands for itself, every percent sign and every special
    character of the decoded text took two percent signs. *)
Lemma pct_decode s : (forall c, special c -> ~ In c s) -> forall buf t, dec_str buf s = Some t ->
  (2 * (pct t + spc t) <= pct s + match buf with Some _ => 1 | None => 0 end)%nat.
Proof.
  induction s as [|c s IH]; intros Hs buf t H.
  - cbn [dec_str] in H. injection H as <-. cbn. lia.
  - assert (Hs' : forall c, special c -> ~ In c s) by (intros d Hd Hi; apply (Hs d Hd); now right).
    assert (Hc : ~ special c) by (intros Q; apply (Hs c Q); now left).
    specialize (IH Hs'). cbn [dec_str] in H. rewrite pct_cons. destruct buf as [b|].
    + destruct (c =? 37) eqn:E.
      * destruct (parse_hex b) as [cp|]; [|discriminate]. cbn [opt_bind] in H. destruct (from_u32 cp) as [ch|]; [|discriminate].
        cbn [opt_bind] in H. destruct (dec_str None s) as [t'|] eqn:D; [|discriminate]. cbn [opt_map] in H. injection H as <-.
        specialize (IH None t' D). cbn beta iota in IH. rewrite pct_cons, spc_cons.
        assert ((if (ch =? 37)%Z then 1 else 0) + (if specialb ch then 1 else 0) <= 1)%nat; [|lia].
        destruct (ch =? 37)%Z eqn:E2; [|destruct (specialb ch); lia]. replace ch with 37 by lia. cbn. lia.
      * specialize (IH _ _ H). cbn beta iota in IH. lia.
    + destruct (c =? 37) eqn:E.
      * specialize (IH _ _ H). cbn beta iota in IH. lia.
      * destruct (dec_str None s) as [t'|] eqn:D; [|discriminate]. cbn [opt_map] in H. injection H as <-.
        specialize (IH None t' D). cbn beta iota in IH. rewrite pct_cons, spc_cons, E.
        replace (specialb c) with false; [lia|]. unfold special in Hc. unfold specialb. lia.
Qed.
Lemma weight_decode s t : decode_string (encode_string s) = Some t ->
  (2 * (pct t + spc t) + pct s <= 2 * (pct s + spc s))%nat.
Proof.
  intros H. apply pct_decode in H; [|intros c Hc; now apply encode_no_special]. rewrite pct_encode in H. cbn beta iota in H. lia.
Qed.

(** ** C51 *)

(** A string survives exactly if it has no percent sign. *)
Theorem C51_exact : forall s, decode_string (encode_string s) = Some s <-> ~ In (chr "%") s.
Proof.
  intros s. split; [|apply C51_string_partial]. intros H. apply weight_decode in H. apply pct_zero. lia.
Qed.
Print Assumptions C51_exact.

(** ** C52 *)

(** Tags survive exactly if no key and no value has a percent sign. *)
Definition wt (kv : str * str) : nat := (pct (fst kv) + spc (fst kv) + pct (snd kv) + spc (snd kv))%nat.
Fixpoint weight (l : list (str * str)) : nat := match l with [] => 0 | kv :: r => (wt kv + weight r)%nat end.
Lemma weight_perm a b : Permutation a b -> weight a = weight b.
Proof. induction 1; cbn [weight]; lia. Qed.
Lemma weight_insert k v m : (weight (map_insert k v m) <= weight m + wt (k, v))%nat.
Proof.
  induction m as [|[k' v'] m IH]; cbn [map_insert weight]; [lia|]. destruct (str_eqb k k'); cbn [weight]; lia.
Qed.
Lemma weight_dec_tags l : forall m m', dec_tags m (map tag_text l) = Ret (Some m') ->
  (2 * weight m' + list_sum (map (fun kv => pct (fst kv) + pct (snd kv)) l) <= 2 * weight m + 2 * weight l)%nat.
Proof.
  induction l as [|[k v] l IH]; intros m m' H.
  - cbn [map dec_tags] in H. injection H as <-. cbn. lia.
  - cbn [map dec_tags] in H. unfold tag_text at 1 in H. cbn [fst snd app] in H.
    rewrite splitn2_app in H by (apply encode_no_special; unfold special; lia).
    destruct (decode_string (encode_string k)) as [k'|] eqn:Ek; cbn [rbind unwrap obind] in H; [|discriminate].
    destruct (decode_string (encode_string v)) as [v'|] eqn:Ev; cbn [rbind] in H; [|discriminate].
    apply IH in H. pose proof (weight_insert k' v' m) as W. apply weight_decode in Ek. apply weight_decode in Ev.
    cbn [map list_sum fold_right weight fst snd]. unfold wt in *. cbn [fst snd] in *. unfold list_sum in *. lia.
Qed.
Lemma map_get_in k v m : map_get k m = Some v -> In (k, v) m.
Proof.
  induction m as [|[k' v'] m IH]; cbn [map_get]; [discriminate|]. destruct (str_eqb k k') eqn:E; [|intros H; right; auto].
  intros [= ->]. apply str_eqb_eq in E. subst. now left.
Qed.
Lemma insert_keys k v m x : In x (map fst (map_insert k v m)) <-> x = k \/ In x (map fst m).
Proof.
  induction m as [|[k' v'] m IH]; cbn [map_insert map fst In]; [intuition congruence|].
  destruct (str_eqb k k') eqn:E; cbn [map fst In]; [apply str_eqb_eq in E; subst; intuition congruence|rewrite IH; tauto].
Qed.
Lemma insert_nodup k v m : NoDup (map fst m) -> NoDup (map fst (map_insert k v m)).
Proof.
  induction m as [|[k' v'] m IH]; cbn [map_insert map fst]; intros H; [repeat constructor; easy|].
  inversion H as [|? ? Hn Hd]; subst. destruct (str_eqb k k') eqn:E; cbn [map fst]; constructor; auto.
  - apply str_eqb_eq in E. now subst.
  - rewrite insert_keys. intros [->|Hi]; [rewrite str_eqb_refl in E; discriminate|contradiction].
Qed.
Lemma dec_tags_nodup l : forall m m', NoDup (map fst m) -> dec_tags m l = Ret (Some m') -> NoDup (map fst m').
Proof.
  induction l as [|kv l IH]; intros m m' Hd H; cbn [dec_tags] in H; [now injection H as <-|].
  destruct (splitn2 61 kv) as [a b]. destruct (decode_string a) as [k|]; cbn [rbind] in H; [|discriminate].
  destruct b as [b|]; cbn [unwrap obind] in H; [|discriminate]. destruct (decode_string b) as [v|]; cbn [rbind] in H; [|discriminate].
  eapply IH; [|exact H]. now apply insert_nodup.
Qed.
Lemma get_in k v m : NoDup (map fst m) -> In (k, v) m -> map_get k m = Some v.
Proof.
  induction m as [|[k' v'] m IH]; cbn [map fst map_get In]; intros Hd Hi; [easy|]. inversion Hd as [|? ? Hn Hd']; subst.
  destruct Hi as [[= -> ->]|Hi]; [now rewrite str_eqb_refl|]. destruct (str_eqb k k') eqn:E; [|auto].
  apply str_eqb_eq in E. subst. exfalso. apply Hn. apply in_map_iff. exists (k', v). auto.
Qed.

Theorem C52_tags_exact : forall l, NoDup (map fst l) ->
  ((exists m, decode_tags (encode_tags l) = Ret (Some m) /\ forall k v, map_get k m = Some v <-> In (k, v) l) <->
   forall k v, In (k, v) l -> ~ In (chr "%") k /\ ~ In (chr "%") v).
Proof.
  intros l Hd. split; [|now apply C52_tags_partial]. intros (m & H & E).
  assert (D : dec_tags [] (map tag_text l) = Ret (Some m)).
  { unfold decode_tags, encode_tags in H. fold tag_text in H. destruct l as [|kv l]; [cbn in H; exact H|].
    change (map (fun kv0 : str * str => encode_string (fst kv0) ++ [61] ++ encode_string (snd kv0))) with (map tag_text) in H.
    destruct (join [44] (map tag_text (kv :: l))) as [|x r] eqn:J.
    - exfalso. destruct l as [|kv2 l]; cbn [map join] in J; unfold tag_text in J; destruct (encode_string (fst kv)); discriminate.
    - rewrite <- J, split_on_join in H; [exact H|discriminate|]. apply Forall_forall. intros s Hs. apply in_map_iff in Hs.
      destruct Hs as ([k v] & <- & _). unfold tag_text. cbn [fst snd]. rewrite !in_app_iff. cbn [In].
      intros [Q|[[Q|[]]|Q]]; [revert Q; apply encode_no_special; unfold special; lia|discriminate|
        revert Q; apply encode_no_special; unfold special; lia]. }
  assert (P : Permutation m l).
  { assert (Hm : NoDup (map fst m)) by (eapply dec_tags_nodup; [|exact D]; constructor).
    apply NoDup_Permutation; [now apply NoDup_map_inv in Hm|now apply NoDup_map_inv in Hd|]. intros [k v]. rewrite <- E. split.
    - now apply get_in.
    - apply map_get_in. }
  apply weight_dec_tags in D. apply weight_perm in P. cbn [weight] in D.
  assert (Z0 : (list_sum (map (fun kv => pct (fst kv) + pct (snd kv)) l) = 0)%nat) by lia.
  clear -Z0. intros k v Hi. induction l as [|[k' v'] l IH]; [easy|]. cbn [map list_sum fold_right fst snd] in Z0. unfold list_sum in IH.
  destruct Hi as [[= -> ->]|Hi]; [|apply IH; [lia|exact Hi]]. change (chr "%") with 37. rewrite <- !pct_zero. lia.
Qed.
Print Assumptions C52_tags_exact.

(** Way nodes survive exactly if there is at least one. *)
Theorem C52_way_nodes_exact : forall l, Forall in_i64 l -> (decode_way_nodes (encode_way_nodes l) = Ret (Some l) <-> l <> []).
Proof.
  intros l HF. split; [|intros; now apply C52_way_nodes_partial]. intros H ->. destruct C52_empty_refuted as [A _]. congruence.
Qed.
Print Assumptions C52_way_nodes_exact.

(** Members survive exactly if there is at least one and no role has a comma. *)
Definition commas (s : str) : nat := length (filter (fun c => c =? 44) s).
Lemma commas_split s : length (split_on 44 s) = S (commas s).
Proof.
  induction s as [|c s IH]; [reflexivity|]. cbn [split_on]. unfold commas in *. cbn [filter]. pose proof (split_on_pieces 44 s) as [_ HN].
  destruct (c =? 44) eqn:E; cbn [length]; [now rewrite IH|]. destruct (split_on 44 s); [congruence|exact IH].
Qed.
Lemma commas_app a b : commas (a ++ b) = (commas a + commas b)%nat.
Proof. unfold commas. now rewrite filter_app, app_length. Qed.
Lemma commas_in s : In 44 s -> (1 <= commas s)%nat.
Proof. intros H. apply in_split in H. destruct H as (a & b & ->). rewrite commas_app. unfold commas at 2. cbn. lia. Qed.
Lemma rmapM_length {A B} (f : A -> result B) l : forall r, rmapM f l = Ret (Some r) -> length r = length l.
Proof.
  induction l as [|a l IH]; intros r H; cbn [rmapM] in H; [now injection H as <-|]. fold (rmapM f) in H.
  destruct (f a) as [[b|]|]; cbn [rbind] in H; try discriminate.
  destruct (rmapM f l) as [[bs|]|]; cbn [rbind] in H; try discriminate. injection H as <-. cbn [length]. now rewrite IH.
Qed.
Lemma commas_join (l : list str) : l <> [] -> (length l + list_sum (map commas l) = S (commas (join [44%Z] l)))%nat.
Proof.
  induction l as [|x [|y l] IH]; intros H; [congruence|unfold list_sum; cbn [map fold_right length join]; lia|].
  change (join [44] (x :: y :: l)) with (x ++ [44] ++ join [44] (y :: l)). rewrite !commas_app.
  specialize (IH ltac:(discriminate)). cbn [map list_sum fold_right length] in *. unfold list_sum in *. change (commas [44]) with 1%nat. lia.
Qed.
Theorem C52_members_exact : forall l,
  (forall t id role, In (t, id, role) l -> (t = chr "n" \/ t = chr "w" \/ t = chr "r") /\ in_i64 id) ->
  (decode_members (encode_members l) = Ret (Some l) <->
   l <> [] /\ forall t id role, In (t, id, role) l -> ~ In (chr ",") role).
Proof.
  intros l Hl. split.
  - intros H. split; [intros ->; destruct C52_empty_refuted as [_ A]; congruence|]. intros t id role Hi Hc.
    unfold decode_members in H. apply rmapM_length in H. rewrite commas_split in H. unfold encode_members in H.
    rewrite <- commas_join in H by (destruct l; [easy|discriminate]). rewrite map_length in H.
    assert (list_sum (map commas (map (fun '(t, id, role) => t :: show_int id ++ [64] ++ role) l)) = 0%nat) by lia.
    clear -H0 Hi Hc. induction l as [|[[t' id'] role'] l IH]; [easy|]. cbn [map list_sum fold_right] in H0. unfold list_sum in IH.
    destruct Hi as [[= -> -> ->]|Hi]; [|apply IH; [exact Hi|lia]]. apply commas_in in Hc.
    change (t :: show_int id ++ [64] ++ role) with ([t] ++ show_int id ++ [64] ++ role) in H0. rewrite !commas_app in H0. lia.
  - intros [Hn Hr]. apply C52_members_partial; [exact Hn|]. intros t id role Hi. destruct (Hl _ _ _ Hi). repeat split; try assumption; try apply H0.
    now apply (Hr t id).
Qed.
Print Assumptions C52_members_exact.

Example C52_exact_ex :
  decode_tags (encode_tags [(lit "a", lit "5%"); (lit "b", lit "c")]) = Ret (Some [(lit "a", lit "5"); (lit "b", lit "c")]) /\
  decode_members (encode_members [(chr "n", 1, lit "a,n2@b"); (chr "w", 3, [])])
    = Ret (Some [(chr "n", 1, lit "a"); (chr "n", 2, lit "b"); (chr "w", 3, [])]).
Proof. split; vm_compute; reflexivity. Qed.
