(** JSON texts produced by the model denote what they should. *)
From Coq Require Import String ZArith List Bool Lia Sorted.
From Coq Require Import ZifyBool ZifyNat.
From Verif Require Import Base Obj Json SpecJson.
Import ListNotations.
Open Scope Z_scope.

Lemma hexval_digit n : 0 <= n < 16 -> hexval (hex_digit n) = Some n.
Proof.
  intros H. unfold hex_digit, hexval. destruct (n <? 10) eqn:E.
  - replace ((48 <=? 48 + n) && (48 + n <=? 57)) with true by lia. f_equal. lia.
  - replace ((48 <=? 87 + n) && (87 + n <=? 57)) with false by lia.
    replace ((97 <=? 87 + n) && (87 + n <=? 102)) with true by lia. f_equal. lia.
Qed.

Lemma jstring_step c r : 0 <= c -> jstring (json_escape c ++ r) = push c (jstring r).
Proof.
  intros H. unfold json_escape.
  destruct (c =? 34) eqn:E1; [apply Z.eqb_eq in E1; subst; reflexivity|].
  destruct (c =? 92) eqn:E2; [apply Z.eqb_eq in E2; subst; reflexivity|].
  destruct (c =? 8) eqn:E3; [apply Z.eqb_eq in E3; subst; reflexivity|].
  destruct (c =? 9) eqn:E4; [apply Z.eqb_eq in E4; subst; reflexivity|].
  destruct (c =? 10) eqn:E5; [apply Z.eqb_eq in E5; subst; reflexivity|].
  destruct (c =? 12) eqn:E6; [apply Z.eqb_eq in E6; subst; reflexivity|].
  destruct (c =? 13) eqn:E7; [apply Z.eqb_eq in E7; subst; reflexivity|].
  destruct (c <? 32) eqn:E8.
  - assert (A : 0 <= c / 16 < 16 /\ 0 <= c mod 16 < 16 /\ c = c / 16 * 16 + c mod 16).
    { pose proof (Z.div_mod c 16). pose proof (Z.mod_pos_bound c 16). lia. }
    destruct A as (A1 & A2 & A3).
    assert (Hh : hex4 48 48 (hex_digit (c / 16)) (hex_digit (c mod 16)) = Some c).
    { unfold hex4. rewrite (hexval_digit _ A1), (hexval_digit _ A2).
      change (hexval 48) with (Some 0). cbv beta iota. f_equal. lia. }
    cbn [app jstring]. change (92 =? 34) with false. change (92 =? 92) with true.
    change (117 =? 117) with true. cbv iota. rewrite Hh.
    replace ((55296 <=? c) && (c <=? 56319)) with false by lia.
    replace ((56320 <=? c) && (c <=? 57343)) with false by lia. reflexivity.
  - cbn [app jstring]. rewrite E1, E2, E8. reflexivity.
Qed.

Definition nonneg (s : str) : Prop := Forall (fun c => 0 <= c) s.

Lemma valid_nonneg s : valid_str s -> nonneg s.
Proof. apply Forall_impl. unfold scalar. lia. Qed.

Lemma jstring_text s r : nonneg s -> jstring (flat_map json_escape s ++ 34 :: r) = Some (s, r).
Proof.
  induction 1 as [|c s Hc Hs IH]; [reflexivity|].
  cbn [flat_map]. rewrite <- app_assoc, jstring_step, IH by assumption. reflexivity.
Qed.

Lemma jvalue_text f s r : nonneg s -> jvalue (S f) (json_text s ++ r) = Some (JStr s, r).
Proof.
  intros H. unfold json_text. cbn [app jvalue skip_jws].
  change (jws 34) with false. change (34 =? 34) with true. cbv iota.
  rewrite <- app_assoc. change ([34] ++ r) with (34 :: r). now rewrite jstring_text.
Qed.

(** ** Objects *)

Definition mtext (p : str * str) : str := let '(k, v) := p in json_text k ++ [58] ++ json_text v.
Definition jmember (p : str * str) : str * json := (fst p, JStr (snd p)).

Definition nonneg2 (p : str * str) : Prop := nonneg (fst p) /\ nonneg (snd p).

Lemma jmembers_one f k v r c : nonneg k -> nonneg v -> c = 125 \/ c = 44 ->
  jmembers (S (S f)) (mtext (k, v) ++ c :: r)
  = if c =? 125 then Some ([(k, JStr v)], r)
    else match jmembers (S f) r with Some (m, t) => Some ((k, JStr v) :: m, t) | None => None end.
Proof.
  intros Hk Hv Hc. cbn [mtext]. unfold json_text at 1. remember (S f) as g eqn:Hg.
  cbn [app jmembers skip_jws]. change (jws 34) with false. cbv iota.
  rewrite <- !app_assoc. cbn [app].
  rewrite jstring_text by assumption.
  cbn [app skip_jws]. change (jws 58) with false. cbv iota.
  subst g. rewrite jvalue_text by assumption.
  destruct Hc as [-> | ->]; reflexivity.
Qed.

Lemma jmembers_all m : forall f r, m <> [] -> Forall nonneg2 m -> (length m < f)%nat ->
  jmembers f (join [44] (map mtext m) ++ 125 :: r) = Some (map jmember m, r).
Proof.
  induction m as [|[k v] m IH]; intros f r Hne HF Hf; [congruence|].
  inversion HF as [|? ? [Hk Hv] HF']; subst. cbn [fst snd] in *.
  cbn [length] in Hf.
  destruct f as [|[|f]]; [lia|lia|].
  destruct m as [|p m].
  - cbn [map join]. rewrite jmembers_one by (try assumption; now left). reflexivity.
  - cbn [map join]. rewrite <- !app_assoc.
    change ([44] ++ ?x) with (44 :: x).
    change (jmembers (S (S f)) (mtext (k, v) ++ 44 :: join [44] (map mtext (p :: m)) ++ 125 :: r)
            = Some (map jmember ((k, v) :: p :: m), r)).
    rewrite jmembers_one by (try assumption; now right).
    change (44 =? 125) with false. cbv iota.
    rewrite IH; [reflexivity|discriminate|assumption|cbn [length] in *; lia].
Qed.


Lemma join_cons2 sep a b l : join sep (a :: b :: l) = a ++ sep ++ join sep (b :: l).
Proof. reflexivity. Qed.

Lemma join_members_length m : (2 * length m <= length (join [44%Z] (map mtext m)))%nat.
Proof.
  induction m as [|[k v] m IH]; [cbn; lia|].
  destruct m as [|p m].
  - cbn [map join mtext]. unfold json_text. rewrite !app_length. cbn. lia.
  - cbn [map] in *. rewrite join_cons2, !app_length.
    assert (1 <= length (mtext (k, v)))%nat by (cbn [mtext]; unfold json_text at 1; cbn; lia).
    cbn [length] in *. lia.
Qed.

Lemma object_text_parse m : Forall nonneg2 m -> parse_json (object_text m) = Some (JObj (map jmember m)).
Proof.
  intros HF. unfold parse_json, object_text.
  change (map (fun '(k, v) => json_text k ++ [58] ++ json_text v) m) with (map mtext m).
  destruct m as [|p m]; [reflexivity|].
  remember (p :: m) as l eqn:Hl.
  assert (Hne : l <> []) by (subst; discriminate).
  assert (Hstart : exists t, join [44] (map mtext l) = 34 :: t).
  { subst l. destruct p as [k v]. destruct m as [|q m]; cbn [map].
    - cbn [join mtext]. unfold json_text at 1. eexists. reflexivity.
    - rewrite join_cons2. cbn [mtext]. unfold json_text at 1. eexists. reflexivity. }
  destruct Hstart as [t Ht].
  set (txt := [123] ++ join [44] (map mtext l) ++ [125]).
  assert (Hlen : (length l < length txt)%nat).
  { subst txt. rewrite !app_length. pose proof (join_members_length l). cbn [length]. lia. }
  assert (Hv : jvalue (S (length txt)) txt = Some (JObj (map jmember l), [])).
  { remember (length txt) as f. subst txt. rewrite Ht. cbn [app jvalue skip_jws].
    change (jws 123) with false. change (123 =? 34) with false. change (123 =? 123) with true.
    change (jws 34) with false. cbv iota.
    change (match jmembers f (34 :: t ++ [125]) with
            | Some (m0, t') => Some (JObj m0, t') | None => None end
            = Some (JObj (map jmember l), [])).
    replace (34 :: t ++ [125]) with (join [44] (map mtext l) ++ 125 :: []) by now rewrite Ht.
    rewrite jmembers_all by assumption. reflexivity. }
  rewrite Hv. reflexivity.
Qed.

(** ** The map *)

Lemma str_cmp_refl a : str_cmp a a = Eq.
Proof. induction a; cbn; [easy|]. now rewrite Z.compare_refl. Qed.
Lemma str_cmp_eq a b : str_cmp a b = Eq -> a = b.
Proof.
  revert b; induction a as [|x a IH]; intros [|y b] H; cbn in H; try discriminate; [easy|].
  destruct (x ?= y) eqn:E; try discriminate. apply Z.compare_eq in E. subst. f_equal. auto.
Qed.
Lemma str_cmp_trans a b c : str_cmp a b = Lt -> str_cmp b c = Lt -> str_cmp a c = Lt.
Proof.
  revert b c; induction a as [|x a IH]; intros [|y b] [|z c] H1 H2; cbn in *; try discriminate; try easy.
  destruct (x ?= y) eqn:E1; try discriminate.
  - apply Z.compare_eq in E1. subst y. destruct (x ?= z) eqn:E2; try discriminate; eauto.
  - destruct (y ?= z) eqn:E2; try discriminate.
    + apply Z.compare_eq in E2. subst z. now rewrite E1.
    + rewrite Z.compare_lt_iff in *. replace (x ?= z) with Lt; [easy|].
      symmetry. apply Z.compare_lt_iff. lia.
Qed.
Lemma str_cmp_gt a b : str_cmp a b = Gt -> str_cmp b a = Lt.
Proof.
  revert b; induction a as [|x a IH]; intros [|y b] H; cbn in *; try discriminate; try easy.
  rewrite Z.compare_antisym. destruct (x ?= y) eqn:E; cbn; try discriminate; auto.
Qed.

Definition key_lt (a b : str * str) : Prop := str_cmp (fst a) (fst b) = Lt.

Lemma map_insert_in k v m p : In p (map_insert k v m) -> fst p = k \/ exists q, In q m /\ fst q = fst p.
Proof.
  induction m as [|[k' v'] m IH]; cbn [map_insert].
  - intros [<-|[]]. now left.
  - destruct (str_cmp k k') eqn:E; cbn [In].
    + intros [<-|H]; right; [exists (k', v')|exists p]; cbn; auto.
    + intros [<-|[<-|H]]; [now left|right; exists (k', v'); cbn; auto|right; exists p; cbn; auto].
    + intros [<-|H]; [right; exists (k', v'); cbn; auto|].
      destruct (IH H) as [A|(q & A & B)]; [now left|right; exists q; cbn; auto].
Qed.

Lemma map_insert_sorted k v m : StronglySorted key_lt m -> StronglySorted key_lt (map_insert k v m).
Proof.
  induction 1 as [|[k' v'] m Hs IH HF]; cbn [map_insert]; [repeat constructor|].
  destruct (str_cmp k k') eqn:E.
  - constructor; [assumption|]. eapply Forall_impl; [|exact HF]. intros a. exact (fun x => x).
  - constructor; [constructor; assumption|].
    constructor; [exact E|]. eapply Forall_impl; [|exact HF].
    intros a Ha. exact (str_cmp_trans _ _ _ E Ha).
  - constructor; [assumption|]. apply Forall_forall. intros p Hp.
    destruct (map_insert_in _ _ _ _ Hp) as [A|(q & A & B)].
    + unfold key_lt. cbn [fst]. rewrite A. now apply str_cmp_gt.
    + unfold key_lt. rewrite <- B. rewrite Forall_forall in HF. exact (HF q A).
Qed.

Lemma sorted_nodup m : StronglySorted key_lt m -> NoDup (map fst m).
Proof.
  induction 1 as [|p m Hs IH HF]; cbn; constructor; [|assumption].
  intros Hin. apply in_map_iff in Hin as (q & E & Hq). rewrite Forall_forall in HF.
  specialize (HF q Hq). unfold key_lt in HF. rewrite E, str_cmp_refl in HF. discriminate.
Qed.

Lemma map_insert_get k v m k' :
  member_value (map jmember (map_insert k v m)) k'
  = if str_eq_dec k k' then Some (JStr v) else member_value (map jmember m) k'.
Proof.
  induction m as [|[k0 v0] m IH]; cbn [map_insert map member_value jmember fst snd].
  - destruct (str_eq_dec k k'); reflexivity.
  - destruct (str_cmp k k0) eqn:E; cbn [map member_value jmember fst snd].
    + apply str_cmp_eq in E. subst k0. destruct (str_eq_dec k k'); reflexivity.
    + reflexivity.
    + rewrite IH. destruct (str_eq_dec k0 k') as [->|]; [|reflexivity].
      destruct (str_eq_dec k k') as [->|]; [|reflexivity].
      rewrite str_cmp_refl in E. discriminate.
Qed.

Definition tag_map (t : tags) : tags := fold_left (fun m '(k, v) => map_insert k v m) t [].

Lemma tag_map_sorted t : StronglySorted key_lt (tag_map t).
Proof.
  unfold tag_map. assert (H : StronglySorted key_lt []) by constructor. revert H.
  generalize (@nil (str * str)). induction t as [|[k v] t IH]; intros m H; cbn; [easy|].
  apply IH. now apply map_insert_sorted.
Qed.

Lemma tag_map_get t k : member_value (map jmember (tag_map t)) k = opt_map JStr (last_value t k).
Proof.
  unfold tag_map, last_value.
  assert (H : member_value (map jmember []) k = opt_map JStr None) by reflexivity.
  revert H. generalize (@nil (str * str)). generalize (@None str).
  induction t as [|[k0 v0] t IH]; intros cur m H; cbn [fold_left]; [easy|].
  apply IH. rewrite map_insert_get. cbn [fst snd]. destruct (str_eq_dec k0 k); [reflexivity|easy].
Qed.

Lemma map_insert_all (P : str * str -> Prop) k v m :
  (forall k' v', P (k', v') -> P (k', v)) ->
  P (k, v) -> Forall P m -> Forall P (map_insert k v m).
Proof.
  intros Hp Hk. induction 1 as [|[k' v'] m H HF IH]; cbn [map_insert]; [repeat constructor; assumption|].
  destruct (str_cmp k k'); constructor; try assumption; eauto.
Qed.

Lemma tag_map_nonneg t : Forall nonneg2 t -> Forall nonneg2 (tag_map t).
Proof.
  unfold tag_map. assert (H : Forall nonneg2 []) by constructor. revert H.
  generalize (@nil (str * str)). induction t as [|[k v] t IH]; intros m Hm H; cbn; [easy|].
  inversion H as [|? ? [Hk Hv] H']; subst. apply IH; [|assumption].
  apply map_insert_all; [|split; assumption|assumption].
  intros k' v' [A B]. split; assumption.
Qed.

Lemma tags_json_parse b t : Forall nonneg2 t -> (b = true <-> t = []) ->
  exists m, parse_json (tags_json b t) = Some (JObj m) /\ NoDup (map fst m)
            /\ forall k, member_value m k = opt_map JStr (last_value t k).
Proof.
  intros Ht Hb. exists (map jmember (tag_map t)). split; [|split].
  - unfold tags_json. destruct b.
    + destruct Hb as [Hb _]. rewrite (Hb eq_refl). reflexivity.
    + apply object_text_parse. now apply tag_map_nonneg.
  - rewrite map_map. cbn [jmember fst].
    change (map (fun x : str * str => fst x) (tag_map t)) with (map fst (tag_map t)).
    apply sorted_nodup, tag_map_sorted.
  - apply tag_map_get.
Qed.

(** ** Arrays of pairs *)

Definition ptext (p : str * str) : str := let '(k, v) := p in [91] ++ json_text k ++ [44] ++ json_text v ++ [93].
Definition jpair (p : str * str) : json := JArr [JStr (fst p); JStr (snd p)].

Lemma jvalue_pair f p r : nonneg2 p -> jvalue (S (S (S (S f)))) (ptext p ++ r) = Some (jpair p, r).
Proof.
  destruct p as [k v]. intros [Hk Hv]. cbn [fst snd] in *.
  remember (S (S (S f))) as g eqn:Hg.
  replace (ptext (k, v) ++ r) with (91 :: json_text k ++ 44 :: json_text v ++ 93 :: r).
  2:{ cbn [ptext app]. rewrite <- !app_assoc. cbn [app]. rewrite <- !app_assoc. reflexivity. }
  change (match jelements g (json_text k ++ 44 :: json_text v ++ 93 :: r) with
          | Some (m, t') => Some (JArr m, t') | None => None end = Some (jpair (k, v), r)).
  rewrite Hg. remember (S (S f)) as g1 eqn:Hg1. cbn [jelements].
  rewrite Hg1, jvalue_text by assumption. cbn [skip_jws]. change (jws 44) with false. cbv iota.
  remember (S f) as g2 eqn:Hg2. cbn [jelements]. rewrite Hg2, jvalue_text by assumption.
  cbn [skip_jws]. change (jws 93) with false. cbv iota. reflexivity.
Qed.

Lemma jelements_all t : forall f r, t <> [] -> Forall nonneg2 t -> (length t + 4 <= f)%nat ->
  jelements f (join [44] (map ptext t) ++ 93 :: r) = Some (map jpair t, r).
Proof.
  induction t as [|p t IH]; intros f r Hne HF Hf; [congruence|].
  inversion HF as [|? ? Hp HF']; subst. cbn [length] in Hf.
  destruct f as [|[|[|[|[|f]]]]]; try lia.
  destruct t as [|q t].
  - cbn [map join]. remember (S (S (S (S f)))) as g eqn:Hg. cbn [jelements].
    rewrite Hg, jvalue_pair by assumption. reflexivity.
  - cbn [map join]. rewrite <- !app_assoc.
    change (jelements (S (S (S (S (S f))))) (ptext p ++ 44 :: join [44] (map ptext (q :: t)) ++ 93 :: r)
            = Some (map jpair (p :: q :: t), r)).
    remember (S (S (S (S f)))) as g eqn:Hg. cbn [jelements].
    rewrite Hg, jvalue_pair by assumption. cbn [skip_jws]. change (jws 44) with false. cbv iota.
    rewrite <- Hg. rewrite IH; [reflexivity|discriminate|assumption|cbn [length] in *; lia].
Qed.

Lemma join_pairs_length t : (5 * length t <= length (join [44%Z] (map ptext t)))%nat.
Proof.
  induction t as [|[k v] t IH]; [cbn; lia|].
  destruct t as [|p t].
  - cbn [map join ptext]. unfold json_text. cbn. rewrite !app_length. cbn. rewrite !app_length. cbn. lia.
  - cbn [map] in *. rewrite join_cons2, !app_length.
    assert (4 <= length (ptext (k, v)))%nat.
    { cbn [ptext]. unfold json_text. cbn. rewrite !app_length. cbn. rewrite !app_length. cbn. lia. }
    cbn [length] in *. lia.
Qed.

Lemma pairs_json_parse t : Forall nonneg2 t -> parse_json (pairs_json t) = Some (JArr (map jpair t)).
Proof.
  intros HF. unfold parse_json, pairs_json.
  change (map (fun '(k, v) => [91] ++ json_text k ++ [44] ++ json_text v ++ [93]) t) with (map ptext t).
  destruct t as [|p m]; [reflexivity|].
  remember (p :: m) as l eqn:Hl.
  assert (Hne : l <> []) by (subst; discriminate).
  assert (Hstart : exists t, join [44] (map ptext l) = 91 :: t).
  { subst l. destruct p as [k v]. destruct m as [|q m]; cbn [map].
    - eexists. reflexivity.
    - rewrite join_cons2. eexists. reflexivity. }
  destruct Hstart as [t Ht].
  set (txt := [91] ++ join [44] (map ptext l) ++ [93]).
  assert (Hlen : (length l + 4 <= length txt)%nat).
  { subst txt. rewrite !app_length. pose proof (join_pairs_length l).
    assert (1 <= length l)%nat by (subst l; cbn; lia). cbn [length]. lia. }
  assert (Hv : jvalue (S (length txt)) txt = Some (JArr (map jpair l), [])).
  { remember (length txt) as f. subst txt. rewrite Ht. cbn [app jvalue skip_jws].
    change (jws 91) with false. change (91 =? 34) with false. change (91 =? 123) with false.
    change (91 =? 91) with true. cbv iota.
    change (match jelements f (91 :: t ++ [93]) with
            | Some (m0, t') => Some (JArr m0, t') | None => None end
            = Some (JArr (map jpair l), [])).
    replace (91 :: t ++ [93]) with (join [44] (map ptext l) ++ 93 :: []) by now rewrite Ht.
    rewrite jelements_all by assumption. reflexivity. }
  rewrite Hv. reflexivity.
Qed.

(** Tags that are Rust strings. *)
Definition valid_tags (t : tags) : Prop := Forall (fun p => valid_str (fst p) /\ valid_str (snd p)) t.
Lemma valid_tags_nonneg t : valid_tags t -> Forall nonneg2 t.
Proof. apply Forall_impl. intros p [A B]. split; now apply valid_nonneg. Qed.
