(** C53, C54, C66 continued: exactly which lines are objects, which crash the decoder,
    and what a file is read as. *)
From Coq Require Import String ZArith List Bool Lia Permutation.
From Coq Require Import ZifyBool ZifyNat.
From Verif Require Import Base SpecNum Ints Utf8 SpecOpl Opl SpecOplLine OplFacts PropsNum PropsOpl PropsOplText.
Import ListNotations.
Open Scope Z_scope.

(** ** Separators *)

Lemma pieces_split c s ps : pieces c s ps <-> split_on c s = ps.
Proof.
  split.
  - induction 1 as [s H|p s ps H _ IH]; [now apply split_on_nosep|]. cbn [app]. rewrite split_on_app by exact H. now rewrite IH.
  - revert ps. induction s as [|x s IH]; intros ps <-; [constructor; easy|]. cbn [split_on].
    specialize (IH _ eq_refl). destruct (x =? c) eqn:E.
    + assert (x = c) by lia. subst x. apply (pc_more c [] s); [easy|exact IH].
    + destruct (split_on c s) as [|w ws]; [inversion IH|]. inversion IH as [? H|p r ? H H2]; subst.
      * constructor. cbn [In]. intros [->|Q]; [lia|tauto].
      * apply (pc_more c (x :: w) r); [|exact H2]. cbn [In]. intros [->|Q]; [lia|tauto].
Qed.
Lemma splitn2_spec c s a b : splitn2 c s = (a, b) <->
  ~ In c a /\ match b with Some r => s = a ++ c :: r | None => s = a end.
Proof.
  revert a b. induction s as [|x s IH]; intros a b; cbn [splitn2].
  - split; [intros [= <- <-]; split; [easy|reflexivity]|]. intros (H & E). destruct b; [destruct a; discriminate E|now subst].
  - destruct (x =? c) eqn:E.
    + assert (x = c) by lia. subst x. split; [intros [= <- <-]; split; [easy|reflexivity]|]. intros (H & Q).
      destruct b as [r|]; [|subst a; cbn [In] in H; tauto]. destruct a as [|y a]; [now injection Q as ->|]. injection Q as -> _. cbn [In] in H. tauto.
    + destruct (splitn2 c s) as [a' b'] eqn:E2. destruct (proj1 (IH a' b') eq_refl) as (H1 & H2). split.
      * intros [= <- <-]. split; [cbn [In]; intros [->|Q]; [lia|tauto]|]. destruct b'; now rewrite H2.
      * intros (H & Q). destruct b as [r|].
        -- destruct a as [|y a]; [injection Q as -> _; lia|]. injection Q as <- Q. cbn [In] in H.
           assert (Q' : (a', b') = (a, Some r)) by (apply IH; tauto). now injection Q' as -> ->.
        -- subst a. cbn [In] in H. assert (Q : (a', b') = (s, None)) by (apply IH; tauto). now injection Q as -> ->.
Qed.

Lemma decode_string_spec s t : decode_string s = Some t <-> stands_for s t.
Proof.
  split; [apply C77_rejects_partial|]. intros [H|(a & b & -> & H & N)]; [now apply C77_texts_decoded|now apply C77_open_refuted].
Qed.

Lemma utf8_char_len1 c : (length (utf8_char c) =? 1)%nat = (c <? 128).
Proof. unfold utf8_char. destruct (c <? 128); [reflexivity|]. destruct (c <? 2048); [reflexivity|]. destruct (c <? 65536); reflexivity. Qed.
Lemma split_kv_spec s k v : split_key_value s = Some (k, v) <-> exists c, k = [c] /\ field s (c, v).
Proof.
  unfold split_key_value, field. destruct s as [|x [|y s]].
  - cbn. split; [discriminate|intros (c & _ & [=] & _)].
  - change (utf8 [x]) with (utf8_char x ++ []). rewrite app_nil_r, utf8_char_len1. cbn [fst snd]. destruct (x <? 128) eqn:E; split.
    + intros [= <- <-]. exists x. repeat split. lia.
    + intros (c & -> & [= -> <-] & _). reflexivity.
    + discriminate.
    + intros (c & _ & [= -> _] & Hc). lia.
  - change (utf8 (x :: y :: s)) with (utf8_char x ++ utf8_char y ++ utf8 s). rewrite !app_length.
    pose proof (utf8_char_len x). pose proof (utf8_char_len y). replace (_ =? _)%nat with false by lia.
    rewrite utf8_char_len1. cbn [fst snd]. destruct (x <? 128) eqn:E; split.
    + intros [= <- <-]. exists x. repeat split. lia.
    + intros (c & -> & [= -> <-] & _). reflexivity.
    + discriminate.
    + intros (c & _ & [= -> _] & Hc). lia.
Qed.

(** ** Sequences of results *)

Lemma rmapM_some {A B} (f : A -> result B) l r : rmapM f l = Ret (Some r) <-> Forall2 (fun a b => f a = Ret (Some b)) l r.
Proof.
  split; [|apply rmapM_ok]. revert r. induction l as [|a l IH]; intros r; cbn [rmapM]; [intros [= <-]; constructor|]. fold (rmapM f).
  destruct (f a) as [[b|]|] eqn:E; cbn [rbind]; try discriminate. destruct (rmapM f l) as [[bs|]|]; cbn [rbind]; try discriminate.
  intros [= <-]. constructor; [exact E|now apply IH].
Qed.
Lemma rmapM_panic {A B} (f : A -> result B) l : rmapM f l = Panic <->
  exists good a rest, l = good ++ a :: rest /\ Forall (fun q => exists b, f q = Ret (Some b)) good /\ f a = Panic.
Proof.
  induction l as [|a l IH]; cbn [rmapM]; [split; [discriminate|intros ([|? ?] & ? & ? & [=] & _)]|]. fold (rmapM f). split.
  - destruct (f a) as [[b|]|] eqn:E; cbn [rbind]; [|discriminate|intros _; exists [], a, l; auto].
    destruct (rmapM f l) as [[bs|]|]; cbn [rbind]; [discriminate|discriminate|]. intros _.
    destruct (proj1 IH eq_refl) as (g & x & r & -> & HF & Hx). exists (a :: g), x, r. repeat split; [constructor; eauto|exact Hx].
  - intros (g & x & r & E & HF & Hx). destruct g as [|y g].
    + injection E as -> _. now rewrite Hx.
    + injection E as -> ->. inversion HF as [|? ? (b & Hb) HF']; subst. rewrite Hb. cbn [rbind].
      rewrite (proj2 IH) by (exists g, x, r; auto). reflexivity.
Qed.
Lemma Forall2_iff {A B} (P Q : A -> B -> Prop) l r : (forall a b, P a b <-> Q a b) -> (Forall2 P l r <-> Forall2 Q l r).
Proof. intros H. split; induction 1; constructor; try assumption; now apply H. Qed.

(** ** Way nodes, members, coordinates *)

Lemma way_nodes_spec s ns : decode_way_nodes s = Ret (Some ns) <-> nodes_of s ns.
Proof.
  unfold decode_way_nodes, nodes_of. rewrite rmapM_some. change (chr ",") with 44. split.
  - intros H. exists (split_on 44 s). split; [now apply pieces_split|]. eapply Forall2_iff; [|exact H]. intros p n. cbn beta.
    unfold id_text. rewrite <- C02_parse_i64_exact. split; [intros ->; reflexivity|intros [= ->]; reflexivity].
  - intros (ps & Hp & H). apply pieces_split in Hp. rewrite Hp. eapply Forall2_iff; [|exact H]. intros p n. cbn beta.
    unfold id_text. rewrite <- C02_parse_i64_exact. split; [intros [= ->]; reflexivity|intros ->; reflexivity].
Qed.
Lemma way_nodes_nopanic s : decode_way_nodes s <> Panic.
Proof. apply rmapM_nopanic. discriminate. Qed.

Lemma member_spec p m : decode_member p = Ret (Some m) <-> member p m.
Proof.
  destruct m as [[t id] role]. unfold decode_member, member. change (chr "@") with 64. change (lit "@") with [64]. split.
  - destruct (split_key_value p) as [[k v]|] eqn:E; cbn [rbind]; [|discriminate]. apply split_kv_spec in E. destruct E as (c & -> & F).
    cbn [hd_error rbind]. destruct (splitn2 64 v) as [a b] eqn:E2. apply splitn2_spec in E2. destruct E2 as (N & E2).
    destruct b as [r|]; [|discriminate]. cbn [unwrap obind]. destruct (parse_i64 a) as [i|] eqn:Ei; [|discriminate]. cbn [rbind].
    intros [= <- <- <-]. exists a. subst v. apply C02_parse_i64_exact in Ei. split; [exact F|]. split; [exact N|exact Ei].
  - intros (a & F & N & Hi). rewrite (proj2 (split_kv_spec p [t] _)) by (exists t; split; [reflexivity|exact F]). cbn [rbind hd_error].
    rewrite (proj2 (splitn2_spec 64 _ a (Some role))) by (split; [exact N|reflexivity]). cbn [unwrap obind].
    rewrite (proj2 (C02_parse_i64_exact a id)) by exact Hi. reflexivity.
Qed.
Lemma member_panic p : decode_member p = Panic <-> exists f, field p f /\ ~ In (chr "@") (snd f).
Proof.
  unfold decode_member. change (chr "@") with 64. split.
  - destruct (split_key_value p) as [[k v]|] eqn:E; cbn [rbind]; [|discriminate]. apply split_kv_spec in E. destruct E as (c & -> & F).
    cbn [hd_error rbind]. destruct (splitn2 64 v) as [a b] eqn:E2. apply splitn2_spec in E2. destruct E2 as (N & E2).
    destruct b as [r|]; [cbn [unwrap obind]; destruct (parse_i64 a); discriminate|]. intros _. exists (c, v). subst v. auto.
  - intros ([c v] & F & N). cbn [snd] in N. rewrite (proj2 (split_kv_spec p [c] v)) by eauto. cbn [rbind hd_error].
    rewrite splitn2_none by exact N. reflexivity.
Qed.
Lemma members_spec s ms : decode_members s = Ret (Some ms) <-> members_of s ms.
Proof.
  unfold decode_members, members_of. rewrite rmapM_some. change (chr ",") with 44. split.
  - intros H. exists (split_on 44 s). split; [now apply pieces_split|]. eapply Forall2_iff; [|exact H]. intros p n. cbn beta. symmetry. apply member_spec.
  - intros (ps & Hp & H). apply pieces_split in Hp. rewrite Hp. eapply Forall2_iff; [|exact H]. intros p n. apply member_spec.
Qed.
Lemma members_panic s : decode_members s = Panic <-> members_crash s.
Proof.
  unfold decode_members, members_crash. rewrite rmapM_panic. change (chr ",") with 44. split.
  - intros (g & p & r & E & HF & Hp). apply member_panic in Hp. destruct Hp as (f & Hf & N). exists g, p, r, f.
    split; [now apply pieces_split|]. split; [|now split]. eapply Forall_impl; [|exact HF]. intros q (m & Hm). exists m. now apply member_spec.
  - intros (g & p & r & f & E & HF & Hf & N). apply pieces_split in E. exists g, p, r. split; [exact E|]. split.
    + eapply Forall_impl; [|exact HF]. intros q (m & Hm). exists m. now apply member_spec.
    + apply member_panic. eauto.
Qed.

Lemma coord_spec {C} (parse : str -> option C) s c : dec_coord parse s = Ret (Some c) <-> coord_of parse s c.
Proof.
  unfold dec_coord, coord_of. destruct s as [|x s].
  - split; [intros [= <-]; now left|]. intros [[_ ->]|(H & _)]; [reflexivity|congruence].
  - destruct (parse (x :: s)) as [v|]; cbn [rbind]; split.
    + intros [= <-]. right. repeat split; discriminate.
    + intros [[H _]|(_ & _ & ->)]; [discriminate H|reflexivity].
    + discriminate.
    + intros [[H _]|(_ & H & <-)]; [discriminate H|congruence].
Qed.
Lemma coord_nopanic {C} (parse : str -> option C) s : dec_coord parse s <> Panic.
Proof. unfold dec_coord. destruct s; [discriminate|]. destruct (parse _); discriminate. Qed.

(** ** Tags *)

Definition inserts (kvs m : list (str * str)) : list (str * str) := fold_left (fun m kv => map_insert (fst kv) (snd kv) m) kvs m.
Lemma dec_tags_some l : forall m r, dec_tags m l = Ret (Some r) <-> exists kvs, Forall2 tag l kvs /\ r = inserts kvs m.
Proof.
  induction l as [|p l IH]; intros m r; cbn [dec_tags].
  - split; [intros [= <-]; exists []; split; [constructor|reflexivity]|]. intros (kvs & H & ->). inversion H. reflexivity.
  - split.
    + destruct (splitn2 61 p) as [a b] eqn:E. apply splitn2_spec in E. destruct E as (N & E).
      destruct (decode_string a) as [k|] eqn:Ea; cbn [rbind]; [|discriminate]. destruct b as [b|]; [|discriminate]. cbn [unwrap obind].
      destruct (decode_string b) as [v|] eqn:Eb; cbn [rbind]; [|discriminate]. intros H. apply IH in H. destruct H as (kvs & HF & ->).
      exists ((k, v) :: kvs). split; [|reflexivity]. constructor; [|exact HF]. exists a, b. cbn [fst snd].
      split; [exact E|]. split; [exact N|]. split; now apply decode_string_spec.
    + intros (kvs & H & ->). inversion H as [|? [k v] ? kvs' (a & b & E & N & Ha & Hb) HF]; subst. cbn [fst snd] in *.
      change (lit "=") with [61]. rewrite (proj2 (splitn2_spec 61 (a ++ [61] ++ b) a (Some b))) by (split; [exact N|reflexivity]).
      rewrite (proj2 (decode_string_spec a k) Ha). cbn [rbind unwrap obind]. rewrite (proj2 (decode_string_spec b v) Hb). cbn [rbind].
      apply IH. exists kvs'. split; [exact HF|reflexivity].
Qed.
Lemma dec_tags_panic l : forall m, dec_tags m l = Panic <->
  exists good p rest k, l = good ++ p :: rest /\ Forall (fun q => exists kv, tag q kv) good /\ ~ In (chr "=") p /\ stands_for p k.
Proof.
  change (chr "=") with 61. induction l as [|p l IH]; intros m; cbn [dec_tags].
  - split; [discriminate|]. intros ([|? ?] & ? & ? & ? & [=] & _).
  - split.
    + destruct (splitn2 61 p) as [a b] eqn:E. apply splitn2_spec in E. destruct E as (N & E).
      destruct (decode_string a) as [k|] eqn:Ea; cbn [rbind]; [|discriminate]. destruct b as [b|]; cbn [unwrap obind].
      * destruct (decode_string b) as [v|] eqn:Eb; cbn [rbind]; [|discriminate]. intros H. apply IH in H. destruct H as (g & q & r & k' & -> & HF & N' & Hq).
        exists (p :: g), q, r, k'. repeat split; try assumption. constructor; [|exact HF]. exists (k, v), a, b. cbn [fst snd].
        split; [exact E|]. split; [exact N|]. split; now apply decode_string_spec.
      * intros _. subst p. exists [], a, l, k. repeat split; [constructor|exact N|now apply decode_string_spec].
    + intros (g & q & r & k & E & HF & N & Hq). destruct g as [|y g].
      * injection E as -> _. rewrite splitn2_none by exact N. rewrite (proj2 (decode_string_spec q k) Hq). reflexivity.
      * injection E as -> ->. inversion HF as [|? ? ([k' v'] & a & b & E & N' & Ha & Hb) HF']; subst. cbn [fst snd] in *.
        change (lit "=") with [61]. rewrite (proj2 (splitn2_spec 61 (a ++ [61] ++ b) a (Some b))) by (split; [exact N'|reflexivity]).
        rewrite (proj2 (decode_string_spec a k') Ha). cbn [rbind unwrap obind]. rewrite (proj2 (decode_string_spec b v') Hb). cbn [rbind].
        apply IH. exists g, q, r, k. auto.
Qed.

Lemma map_insert_keys k v m : NoDup (map fst m) -> NoDup (map fst (map_insert k v m)) /\ forall x, In x (map fst (map_insert k v m)) <-> x = k \/ In x (map fst m).
Proof.
  induction m as [|[k' v'] m IH]; intros H; cbn [map_insert map fst In].
  - split; [repeat constructor; easy|]. intros x. split; [intros [->|[]]; now left|intros [->|[]]; now left].
  - cbn [map fst] in H. inversion H as [|? ? H1 H2]; subst. destruct (IH H2) as (A & B). destruct (str_eqb k k') eqn:E.
    + apply str_eqb_eq in E. subst k'. cbn [map fst In]. split; [exact H|]. intros x. split; [intros [->|Q]; auto|intros [->|[->|Q]]; auto].
    + cbn [map fst In]. split.
      * constructor; [|exact A]. rewrite B. intros [->|Q]; [rewrite str_eqb_refl in E; discriminate|tauto].
      * intros x. rewrite B. tauto.
Qed.
Lemma map_get_in m : NoDup (map fst m) -> forall k v, map_get k m = Some v <-> In (k, v) m.
Proof.
  induction m as [|[a b] m IH]; intros Hd k v; cbn [map_get In]; [split; [discriminate|easy]|].
  cbn [map fst] in Hd. inversion Hd as [|? ? Hn Hd']; subst. destruct (str_eqb k a) eqn:E.
  - apply str_eqb_eq in E. subst a. split; [intros [= ->]; now left|].
    intros [[= ->]|Hi]; [reflexivity|]. exfalso. apply Hn. apply in_map_iff. exists (k, v). auto.
  - rewrite IH by exact Hd'. split; [now right|]. intros [[= -> ->]|Hi]; [|exact Hi]. rewrite str_eqb_refl in E. discriminate.
Qed.
Lemma inserts_nodup kvs : forall m, NoDup (map fst m) -> NoDup (map fst (inserts kvs m)).
Proof. induction kvs as [|[k v] kvs IH]; intros m H; [exact H|]. cbn [inserts fold_left fst snd]. apply IH. now apply map_insert_keys. Qed.
Lemma inserts_snoc kvs k v m : inserts (kvs ++ [(k, v)]) m = map_insert k v (inserts kvs m).
Proof. unfold inserts. now rewrite fold_left_app. Qed.
Lemma last_value_snoc kvs k v k' v' : last_value (kvs ++ [(k, v)]) k' v' <-> (k' = k /\ v' = v) \/ (k' <> k /\ last_value kvs k' v').
Proof.
  unfold last_value. split.
  - intros (a & b & E & N). destruct b as [|x b] using rev_ind.
    + apply app_inj_tail in E. destruct E as (_ & [= <- <-]). now left.
    + clear IHb. change (a ++ (k', v') :: b ++ [x]) with (a ++ ((k', v') :: b) ++ [x]) in E. rewrite app_assoc in E.
      apply app_inj_tail in E. destruct E as (-> & <-). rewrite map_app, in_app_iff in N. cbn [map fst In] in N.
      right. split; [intros ->; tauto|]. exists a, b. tauto.
  - intros [(-> & ->)|(H & a & b & -> & N)]; [exists kvs, []; split; [reflexivity|easy]|]. exists a, (b ++ [(k, v)]).
    rewrite <- app_assoc. split; [reflexivity|]. rewrite map_app, in_app_iff. cbn [map fst In]. intros [Q|[Q|[]]]; [tauto|congruence].
Qed.
Lemma inserts_map kvs : map_of kvs (inserts kvs []).
Proof.
  split; [apply inserts_nodup; constructor|]. induction kvs as [|[k v] kvs IH] using rev_ind; intros k' v'.
  - cbn. split; [easy|]. intros ([|? ?] & b & [=] & _).
  - rewrite last_value_snoc, inserts_snoc. assert (D : NoDup (map fst (inserts kvs []))) by (apply inserts_nodup; constructor).
    rewrite <- map_get_in by (now apply map_insert_keys). rewrite map_get_insert. destruct (str_eqb k' k) eqn:E.
    + apply str_eqb_eq in E. subst k'. split; [intros [= ->]; now left|intros [(_ & ->)|(H & _)]; [reflexivity|congruence]].
    + rewrite map_get_in by exact D. rewrite IH. split; [intros H; right; split; [intros ->; rewrite str_eqb_refl in E; discriminate|exact H]|].
      intros [(-> & _)|(_ & H)]; [rewrite str_eqb_refl in E; discriminate|exact H].
Qed.
Lemma map_of_perm kvs m m' : map_of kvs m -> (map_of kvs m' <-> Permutation m m').
Proof.
  intros (D & H). split.
  - intros (D' & H'). apply NoDup_Permutation; [now apply NoDup_map_inv in D|now apply NoDup_map_inv in D'|].
    intros [k v]. rewrite H, H'. reflexivity.
  - intros P. split; [eapply Permutation_NoDup; [apply Permutation_map; exact P|exact D]|]. intros k v. rewrite <- H.
    split; intros Q; [now apply Permutation_in with m'; [symmetry|]|now apply Permutation_in with m].
Qed.

Lemma tags_spec s m : (exists m', decode_tags s = Ret (Some m') /\ Permutation m' m) <-> tags_of s m.
Proof.
  unfold decode_tags, tags_of. change (chr ",") with 44. destruct s as [|x s].
  - split; [intros (m' & [= <-] & P); left; split; [reflexivity|now apply Permutation_nil]|].
    intros [(_ & ->)|(H & _)]; [exists []; split; [reflexivity|constructor]|congruence].
  - split.
    + intros (m' & H & P). apply dec_tags_some in H. destruct H as (kvs & HF & ->). right. split; [discriminate|].
      exists (split_on 44 (x :: s)), kvs. split; [now apply pieces_split|]. split; [exact HF|]. now apply (map_of_perm kvs _ m (inserts_map kvs)).
    + intros [(H & _)|(_ & ps & kvs & Hp & HF & Hm)]; [discriminate H|]. apply pieces_split in Hp. exists (inserts kvs []). split.
      * apply dec_tags_some. exists kvs. now rewrite Hp.
      * now apply (map_of_perm kvs _ m (inserts_map kvs)).
Qed.
Lemma tags_panic s : decode_tags s = Panic <-> tags_crash s.
Proof.
  unfold decode_tags, tags_crash. change (chr ",") with 44. destruct s as [|x s]; [split; [discriminate|intros (H & _); congruence]|].
  rewrite dec_tags_panic. split.
  - intros (g & p & r & k & E & H). split; [discriminate|]. exists g, p, r, k. split; [now apply pieces_split|exact H].
  - intros (_ & g & p & r & k & E & H). apply pieces_split in E. exists g, p, r, k. split; [exact E|exact H].
Qed.

(** ** Fields *)

Definition enc (f : char * str) : str * str := ([fst f], snd f).
Lemma fields_items ps items : Forall2 (fun p kv => split_key_value p = Some kv) ps items <-> exists fs, Forall2 field ps fs /\ items = map enc fs.
Proof.
  split.
  - induction 1 as [|p [k v] ps items H _ (fs & HF & ->)]; [exists []; split; [constructor|reflexivity]|].
    apply split_kv_spec in H. destruct H as (c & -> & F). exists ((c, v) :: fs). split; [now constructor|reflexivity].
  - intros (fs & HF & ->). induction HF as [|p [c v] ps fs F _ IH]; constructor; [|exact IH]. apply split_kv_spec. exists c. now split.
Qed.
Lemma line_items line : (exists fs, fields_of line fs /\ rmapM (fun s => Ret (split_key_value s)) (split_on 32 line) = Ret (Some (map enc fs)))
  \/ ((forall fs, ~ fields_of line fs) /\ rmapM (fun s => Ret (split_key_value s)) (split_on 32 line) = Ret None).
Proof.
  assert (S : forall items, rmapM (fun s => Ret (split_key_value s)) (split_on 32 line) = Ret (Some items) <-> exists fs, fields_of line fs /\ items = map enc fs).
  { intros items. rewrite rmapM_some. unfold fields_of. change (chr " ") with 32. split.
    - intros H. assert (H' : Forall2 (fun p kv => split_key_value p = Some kv) (split_on 32 line) items).
      { eapply Forall2_iff; [|exact H]. intros a b. cbn beta. split; [intros ->; reflexivity|intros [= ->]; reflexivity]. }
      apply fields_items in H'. destruct H' as (fs & HF & ->). exists fs. split; [|reflexivity]. exists (split_on 32 line). split; [now apply pieces_split|exact HF].
    - intros (fs & (ps & Hp & HF) & ->). apply pieces_split in Hp. rewrite Hp. eapply Forall2_iff; [|apply fields_items; exists fs; split; [exact HF|reflexivity]].
      intros a b. cbn beta. split; [intros [= ->]; reflexivity|intros ->; reflexivity]. }
  destruct (rmapM _ _) as [[items|]|] eqn:E.
  - left. destruct (proj1 (S items) eq_refl) as (fs & HF & ->). exists fs. now split.
  - right. split; [|reflexivity]. intros fs HF. discriminate (proj2 (S (map enc fs)) (ex_intro _ fs (conj HF eq_refl))).
  - exfalso. revert E. apply rmapM_nopanic. discriminate.
Qed.
Lemma field_fun p f f' : field p f -> field p f' -> f = f'.
Proof. destruct f, f'. unfold field. cbn [fst snd]. intros (-> & _) ([= -> ->] & _). reflexivity. Qed.
Lemma fields_of_fun line fs fs' : fields_of line fs -> fields_of line fs' -> fs = fs'.
Proof.
  intros (ps & Hp & HF) (ps' & Hp' & HF'). apply pieces_split in Hp, Hp'. assert (ps = ps') by congruence. clear Hp Hp'. subst ps'. revert fs' HF'.
  induction HF as [|p f ps fs H _ IH]; intros fs' HF'; inversion HF' as [|? ? ? ? H' HF'']; subst; [reflexivity|].
  f_equal; [exact (field_fun _ _ _ H H')|now apply IH].
Qed.

Lemma value_at_item fs i v : value_at fs i v <-> item (map enc fs) i = Ret v.
Proof.
  unfold value_at, item. rewrite nth_error_map. destruct (nth_error fs i) as [[c w]|]; cbn; split.
  - intros (c' & [= _ ->]). reflexivity.
  - intros [= ->]. now exists c.
  - intros (c' & [=]).
  - discriminate.
Qed.
Lemma item_panic fs i : item (map enc fs) i = Panic <-> (length fs <= i)%nat.
Proof.
  unfold item. rewrite nth_error_map. rewrite <- nth_error_None. destruct (nth_error fs i) as [[c w]|]; cbn; split; try discriminate; reflexivity.
Qed.
Lemma item_bind {A} fs i (k : str -> outcome A) r : (do x <- item (map enc fs) i; k x) = Ret r <-> exists v, value_at fs i v /\ k v = Ret r.
Proof.
  destruct (item (map enc fs) i) as [v|] eqn:E; cbn [obind]; split.
  - intros H. exists v. split; [now apply value_at_item|exact H].
  - intros (v' & H & K). apply value_at_item in H. congruence.
  - discriminate.
  - intros (v' & H & K). apply value_at_item in H. congruence.
Qed.
Lemma item_bind_panic {A} fs i (k : str -> outcome A) : (do x <- item (map enc fs) i; k x) = Panic <-> (length fs <= i)%nat \/ exists v, value_at fs i v /\ k v = Panic.
Proof.
  rewrite <- item_panic. destruct (item (map enc fs) i) as [v|] eqn:E; cbn [obind]; split.
  - intros H. right. exists v. split; [now apply value_at_item|exact H].
  - intros [[=]|(v' & H & K)]. apply value_at_item in H. congruence.
  - now left.
  - reflexivity.
Qed.
Lemma try_some {A B} (x : result A) (k : A -> result B) r : rbind x k = Ret (Some r) <-> exists a, x = Ret (Some a) /\ k a = Ret (Some r).
Proof.
  destruct x as [[a|]|]; cbn [rbind]; split; intros H; try discriminate H; [eauto| | |]; destruct H as (b & E & H); [injection E as ->; exact H|discriminate E|discriminate E].
Qed.
Lemma try_panic {A B} (x : result A) (k : A -> result B) : rbind x k = Panic <-> x = Panic \/ exists a, x = Ret (Some a) /\ k a = Panic.
Proof.
  destruct x as [[a|]|]; cbn [rbind]; split; intros H; try discriminate H; [eauto| | |now left|reflexivity];
    destruct H as [E|(b & E & H)]; try discriminate E; injection E as ->; exact H.
Qed.

Lemma meta_spec fs m : dec_meta (map enc fs) = Ret (Some m) <-> meta_of fs m.
Proof.
  unfold dec_meta, meta_of, id_text, u32_text. split.
  - intros H. apply item_bind in H. destruct H as (s0 & V0 & H). apply try_some in H. destruct H as (a0 & [= P0] & H).
    apply item_bind in H. destruct H as (s1 & V1 & H). apply try_some in H. destruct H as (a1 & [= P1] & H).
    apply item_bind in H. destruct H as (s2 & V2 & H). cbv zeta in H.
    apply item_bind in H. destruct H as (s3 & V3 & H). apply try_some in H. destruct H as (a3 & [= P3] & H).
    apply item_bind in H. destruct H as (s4 & V4 & H).
    apply item_bind in H. destruct H as (s5 & V5 & H). apply try_some in H. destruct H as (a5 & [= P5] & H).
    apply item_bind in H. destruct H as (s6 & V6 & H). injection H as <-. cbn [om_id om_version om_deleted om_changeset om_timestamp om_uid om_user].
    apply C02_parse_i64_exact in P0. apply C02_parse_u32_exact in P1, P3, P5.
    split; [eauto|]. split; [eauto|]. split; [exists s2; split; [exact V2|apply str_eqb_eq]|]. split; [eauto|]. split; [exact V4|]. split; [eauto|exact V6].
  - intros ((s0 & V0 & P0) & (s1 & V1 & P1) & (s2 & V2 & P2) & (s3 & V3 & P3) & V4 & (s5 & V5 & P5) & V6).
    apply C02_parse_i64_exact in P0. apply C02_parse_u32_exact in P1, P3, P5.
    apply value_at_item in V0, V1, V2, V3, V4, V5, V6.
    rewrite V0. cbn [obind]. rewrite P0. cbn [rbind]. rewrite V1. cbn [obind]. rewrite P1. cbn [rbind]. rewrite V2. cbn [obind]. cbv zeta.
    rewrite V3. cbn [obind]. rewrite P3. cbn [rbind]. rewrite V4. cbn [obind]. rewrite V5. cbn [obind]. rewrite P5. cbn [rbind]. rewrite V6. cbn [obind].
    destruct m as [a b d e f g h]. cbn [om_id om_version om_deleted om_changeset om_timestamp om_uid om_user] in *.
    replace (str_eqb s2 [68]) with d; [reflexivity|]. destruct (str_eqb s2 [68]) eqn:Es.
    + apply P2. now apply str_eqb_eq.
    + destruct d; [|reflexivity]. rewrite (proj1 P2 eq_refl) in Es. discriminate Es.
Qed.

Lemma tags_at_spec fs m : tags_at fs m <-> exists s m', value_at fs 7 s /\ decode_tags s = Ret (Some m') /\ Permutation m' m.
Proof.
  unfold tags_at. split.
  - intros (s & V & H). apply tags_spec in H. destruct H as (m' & H & P). eauto.
  - intros (s & m' & V & H & P). exists s. split; [exact V|]. apply tags_spec. eauto.
Qed.
Lemma value_at_fun fs i v w : value_at fs i v -> value_at fs i w -> v = w.
Proof. intros (c & H) (d & K). congruence. Qed.
Lemma kind_fun fs c d : kind_of fs c -> kind_of fs d -> c = d.
Proof. intros (v & H) (w & K). congruence. Qed.
Lemma value_at_len fs i v : value_at fs i v -> (i < length fs)%nat.
Proof. intros (c & H). apply nth_error_Some. congruence. Qed.

Section Line.
Variable C : Type.
Variable parse_lon parse_lat : str -> option C.
Let node_k items := (do x <- item items 7; try tags <- decode_tags x;
        do x <- item items 8; try lon <- dec_coord parse_lon x;
        do x <- item items 9; try lat <- dec_coord parse_lat x;
        try m <- dec_meta items; Ret (Some (ONode m tags lon lat))).
Let way_k items : result (oobj C) := (do x <- item items 7; try tags <- decode_tags x;
        do x <- item items 8; try nodes <- decode_way_nodes x;
        try m <- dec_meta items; Ret (Some (OWay m tags nodes))).
Let rel_k items : result (oobj C) := (do x <- item items 7; try tags <- decode_tags x;
        do x <- item items 8; try members <- decode_members x;
        try m <- dec_meta items; Ret (Some (ORel m tags members))).

Lemma items_cases fs :
  (kind_of fs 110 /\ dec_items parse_lon parse_lat (map enc fs) = node_k (map enc fs)) \/
  (kind_of fs 119 /\ dec_items parse_lon parse_lat (map enc fs) = way_k (map enc fs)) \/
  (kind_of fs 114 /\ dec_items parse_lon parse_lat (map enc fs) = rel_k (map enc fs)) \/
  (~ kind_of fs 110 /\ ~ kind_of fs 119 /\ ~ kind_of fs 114 /\ dec_items parse_lon parse_lat (map enc fs) = Ret None) \/
  fs = [].
Proof.
  destruct fs as [|[c v] fs]; [tauto|]. assert (K : forall d, kind_of ((c, v) :: fs) d <-> c = d).
  { intros d. split; [intros (w & [= -> _]); reflexivity|intros ->; exists v; reflexivity]. }
  unfold dec_items. cbn [map enc fst snd].
  destruct (str_eqb [c] [110]) eqn:E1; [apply str_eqb_eq in E1; injection E1 as ->; left; rewrite K; now split|].
  destruct (str_eqb [c] [119]) eqn:E2; [apply str_eqb_eq in E2; injection E2 as ->; right; left; rewrite K; now split|].
  destruct (str_eqb [c] [114]) eqn:E3; [apply str_eqb_eq in E3; injection E3 as ->; right; right; left; rewrite K; now split|].
  right; right; right; left. rewrite !K. repeat split; intros ->; rewrite str_eqb_refl in *; discriminate.
Qed.

Lemma fields_ne line fs : fields_of line fs -> fs <> [].
Proof. intros (ps & Hp & HF) ->. inversion HF; subst. inversion Hp. Qed.

Lemma object_spec fs o : fs <> [] ->
  ((exists o', dec_items parse_lon parse_lat (map enc fs) = Ret (Some o') /\ same_object o' o) <-> object_of parse_lon parse_lat fs o).
Proof.
  intros Hne. destruct (items_cases fs) as [(K & E)|[(K & E)|[(K & E)|[(K1 & K2 & K3 & E)|E]]]]; [| | |clear Hne|congruence]; try rewrite E.
  - split.
    + intros (o' & H & S). unfold node_k in H. apply item_bind in H. destruct H as (s7 & V7 & H). apply try_some in H. destruct H as (t & Ht & H).
      apply item_bind in H. destruct H as (s8 & V8 & H). apply try_some in H. destruct H as (lo & Hlo & H).
      apply item_bind in H. destruct H as (s9 & V9 & H). apply try_some in H. destruct H as (la & Hla & H). apply try_some in H. destruct H as (m & Hm & H).
      injection H as <-. destruct o as [m' t' lo' la'| |]; [|destruct S|destruct S]. destruct S as (-> & P & -> & ->). cbn [object_of].
      split; [exact K|]. split; [now apply meta_spec|]. split; [apply tags_at_spec; eauto|]. split; [exists s8; split; [exact V8|now apply coord_spec]|exists s9; split; [exact V9|now apply coord_spec]].
    + destruct o as [m t lo la|m t ns|m t ms]; cbn [object_of]; [|intros (K' & _); pose proof (kind_fun _ _ _ K K'); discriminate|intros (K' & _); pose proof (kind_fun _ _ _ K K'); discriminate].
      intros (_ & Hm & Ht & (s8 & V8 & H8) & (s9 & V9 & H9)). apply tags_at_spec in Ht. destruct Ht as (s7 & t' & V7 & Ht & P).
      apply meta_spec in Hm. apply coord_spec in H8, H9. apply value_at_item in V7, V8, V9. exists (ONode m t' lo la). split; [|repeat split; exact P].
      unfold node_k. rewrite V7. cbn [obind]. rewrite Ht. cbn [rbind]. rewrite V8. cbn [obind]. rewrite H8. cbn [rbind]. rewrite V9. cbn [obind]. rewrite H9. cbn [rbind]. rewrite Hm. reflexivity.
  - split.
    + intros (o' & H & S). unfold way_k in H. apply item_bind in H. destruct H as (s7 & V7 & H). apply try_some in H. destruct H as (t & Ht & H).
      apply item_bind in H. destruct H as (s8 & V8 & H). apply try_some in H. destruct H as (ns & Hns & H). apply try_some in H. destruct H as (m & Hm & H).
      injection H as <-. destruct o as [|m' t' ns'|]; [destruct S| |destruct S]. destruct S as (-> & P & ->). cbn [object_of].
      split; [exact K|]. split; [now apply meta_spec|]. split; [apply tags_at_spec; eauto|]. exists s8; split; [exact V8|now apply way_nodes_spec].
    + destruct o as [m t lo la|m t ns|m t ms]; cbn [object_of]; [intros (K' & _); pose proof (kind_fun _ _ _ K K'); discriminate| |intros (K' & _); pose proof (kind_fun _ _ _ K K'); discriminate].
      intros (_ & Hm & Ht & (s8 & V8 & H8)). apply tags_at_spec in Ht. destruct Ht as (s7 & t' & V7 & Ht & P).
      apply meta_spec in Hm. apply way_nodes_spec in H8. apply value_at_item in V7, V8. exists (OWay m t' ns). split; [|repeat split; exact P].
      unfold way_k. rewrite V7. cbn [obind]. rewrite Ht. cbn [rbind]. rewrite V8. cbn [obind]. rewrite H8. cbn [rbind]. rewrite Hm. reflexivity.
  - split.
    + intros (o' & H & S). unfold rel_k in H. apply item_bind in H. destruct H as (s7 & V7 & H). apply try_some in H. destruct H as (t & Ht & H).
      apply item_bind in H. destruct H as (s8 & V8 & H). apply try_some in H. destruct H as (ns & Hns & H). apply try_some in H. destruct H as (m & Hm & H).
      injection H as <-. destruct o as [| |m' t' ns']; [destruct S|destruct S|]. destruct S as (-> & P & ->). cbn [object_of].
      split; [exact K|]. split; [now apply meta_spec|]. split; [apply tags_at_spec; eauto|]. exists s8; split; [exact V8|now apply members_spec].
    + destruct o as [m t lo la|m t ns|m t ms]; cbn [object_of]; [intros (K' & _); pose proof (kind_fun _ _ _ K K'); discriminate|intros (K' & _); pose proof (kind_fun _ _ _ K K'); discriminate|].
      intros (_ & Hm & Ht & (s8 & V8 & H8)). apply tags_at_spec in Ht. destruct Ht as (s7 & t' & V7 & Ht & P).
      apply meta_spec in Hm. apply members_spec in H8. apply value_at_item in V7, V8. exists (ORel m t' ms). split; [|repeat split; exact P].
      unfold rel_k. rewrite V7. cbn [obind]. rewrite Ht. cbn [rbind]. rewrite V8. cbn [obind]. rewrite H8. cbn [rbind]. rewrite Hm. reflexivity.
  - split; [intros (o' & [=] & _)|]. destruct o; cbn [object_of]; intros (K & _); contradiction.
Qed.

(** A line is decoded to an object exactly if it says that object: whatever is between
    single spaces is a letter and a value, in the order id, version, deleted or not,
    changeset, timestamp, user id, user, tags, and coordinates, nodes or members; more
    fields may follow. *)
Theorem C53_exact : forall line o,
  (exists o', decode_line parse_lon parse_lat line = Ret (Some o') /\ same_object o' o) <-> says parse_lon parse_lat line o.
Proof.
  intros line o. unfold decode_line, says. destruct (line_items line) as [(fs & HF & ->)|(HN & ->)]; cbn [rbind].
  - rewrite (object_spec fs o) by (eapply fields_ne; exact HF). split; [eauto|]. intros (fs' & HF' & H).
    now rewrite (fields_of_fun _ _ _ HF HF').
  - split; [intros (o' & [=] & _)|]. intros (fs & HF & _). now apply HN in HF.
Qed.

Lemma dec_meta_len fs : (9 <= length fs)%nat -> dec_meta (map enc fs) <> Panic.
Proof. intros H. apply dec_meta_nopanic. rewrite map_length. lia. Qed.
Lemma tags_some_at fs s t : value_at fs 7 s -> decode_tags s = Ret (Some t) -> exists m, tags_at fs m.
Proof. intros V H. exists t. apply tags_at_spec. exists s, t. auto. Qed.

(** The decoder panics exactly on the lines that lack fields, tags or members that it
    looks into before it has found anything else wrong. *)
Theorem C54_exact : forall line, decode_line parse_lon parse_lat line = Panic <-> crashes parse_lon line.
Proof.
  intros line. unfold decode_line, crashes. change (chr "n") with 110. change (chr "w") with 119. change (chr "r") with 114.
  destruct (line_items line) as [(fs & HF & ->)|(HN & ->)]; cbn [rbind].
  2: { split; [discriminate|]. intros (fs & HF & _). now apply HN in HF. }
  pose proof (fields_ne _ _ HF) as Hne.
  enough (S : dec_items parse_lon parse_lat (map enc fs) = Panic <-> (kind_of fs 110 \/ kind_of fs 119 \/ kind_of fs 114) /\
    ((length fs <= 7)%nat \/ (exists s, value_at fs 7 s /\ tags_crash s) \/ (length fs = 8%nat /\ exists m, tags_at fs m) \/
    (length fs = 9%nat /\ kind_of fs 110 /\ (exists m, tags_at fs m) /\ exists s c, value_at fs 8 s /\ coord_of parse_lon s c) \/
    (kind_of fs 114 /\ (exists m, tags_at fs m) /\ exists s, value_at fs 8 s /\ members_crash s))).
  { rewrite S. split; [eauto|]. intros (fs' & HF' & H). now rewrite (fields_of_fun _ _ _ HF HF'). }
  destruct (items_cases fs) as [(K & E)|[(K & E)|[(K & E)|[(K1 & K2 & K3 & E)|E]]]]; [| | |clear Hne|congruence]; try rewrite E.
  - unfold node_k. rewrite item_bind_panic. split.
    + intros H. split; [auto|]. destruct H as [H|(s7 & V7 & H)]; [auto|]. apply try_panic in H. destruct H as [H|(t & Ht & H)]; [apply tags_panic in H; eauto|].
      pose proof (value_at_len _ _ _ V7) as L7. pose proof (tags_some_at _ _ _ V7 Ht) as TA.
      apply item_bind_panic in H. destruct H as [H|(s8 & V8 & H)]; [right; right; left; split; [lia|exact TA]|].
      apply try_panic in H. destruct H as [H|(lo & Hlo & H)]; [now apply coord_nopanic in H|]. apply coord_spec in Hlo.
      pose proof (value_at_len _ _ _ V8) as L8.
      apply item_bind_panic in H. destruct H as [H|(s9 & V9 & H)]; [right; right; right; left; split; [lia|]; eauto 8|].
      apply try_panic in H. destruct H as [H|(la & Hla & H)]; [now apply coord_nopanic in H|].
      pose proof (value_at_len _ _ _ V9) as L9. apply try_panic in H. destruct H as [H|(m & Hm & [=])]. exfalso. revert H. apply dec_meta_len. lia.
    + intros (_ & [H|[(s & V & H)|[(H & m & T)|[(H & _ & (m & T) & s & c & V8 & Hc)|(K' & _)]]]]); [now left| | | |pose proof (kind_fun _ _ _ K K'); discriminate].
      * right. exists s. split; [exact V|]. apply try_panic. left. now apply tags_panic.
      * apply tags_at_spec in T. destruct T as (s & m' & V & Ht & _). right. exists s. split; [exact V|]. rewrite Ht. cbn [rbind]. apply item_bind_panic. left. lia.
      * apply tags_at_spec in T. destruct T as (s7 & m' & V & Ht & _). right. exists s7. split; [exact V|]. rewrite Ht. cbn [rbind]. apply item_bind_panic. right. exists s.
        split; [exact V8|]. apply coord_spec in Hc. rewrite Hc. cbn [rbind]. apply item_bind_panic. left. lia.
  - unfold way_k. rewrite item_bind_panic. split.
    + intros H. split; [auto|]. destruct H as [H|(s7 & V7 & H)]; [auto|]. apply try_panic in H. destruct H as [H|(t & Ht & H)]; [apply tags_panic in H; eauto|].
      pose proof (value_at_len _ _ _ V7) as L7. pose proof (tags_some_at _ _ _ V7 Ht) as TA.
      apply item_bind_panic in H. destruct H as [H|(s8 & V8 & H)]; [right; right; left; split; [lia|exact TA]|].
      apply try_panic in H. destruct H as [H|(lo & Hlo & H)]; [now apply way_nodes_nopanic in H|].
      pose proof (value_at_len _ _ _ V8) as L8. apply try_panic in H. destruct H as [H|(m & Hm & [=])]. exfalso. revert H. apply dec_meta_len. lia.
    + intros (_ & [H|[(s & V & H)|[(H & m & T)|[(H & K' & _)|(K' & _)]]]]); [now left| | |pose proof (kind_fun _ _ _ K K'); discriminate|pose proof (kind_fun _ _ _ K K'); discriminate].
      * right. exists s. split; [exact V|]. apply try_panic. left. now apply tags_panic.
      * apply tags_at_spec in T. destruct T as (s & m' & V & Ht & _). right. exists s. split; [exact V|]. rewrite Ht. cbn [rbind]. apply item_bind_panic. left. lia.
  - unfold rel_k. rewrite item_bind_panic. split.
    + intros H. split; [auto|]. destruct H as [H|(s7 & V7 & H)]; [auto|]. apply try_panic in H. destruct H as [H|(t & Ht & H)]; [apply tags_panic in H; eauto|].
      pose proof (value_at_len _ _ _ V7) as L7. pose proof (tags_some_at _ _ _ V7 Ht) as TA.
      apply item_bind_panic in H. destruct H as [H|(s8 & V8 & H)]; [right; right; left; split; [lia|exact TA]|].
      apply try_panic in H. destruct H as [H|(lo & Hlo & H)]; [apply members_panic in H; right; right; right; right; eauto 8|].
      pose proof (value_at_len _ _ _ V8) as L8. apply try_panic in H. destruct H as [H|(m & Hm & [=])]. exfalso. revert H. apply dec_meta_len. lia.
    + intros (_ & [H|[(s & V & H)|[(H & m & T)|[(H & K' & _)|(_ & (m & T) & s & V8 & Hc)]]]]); [now left| | |pose proof (kind_fun _ _ _ K K'); discriminate|].
      * right. exists s. split; [exact V|]. apply try_panic. left. now apply tags_panic.
      * apply tags_at_spec in T. destruct T as (s & m' & V & Ht & _). right. exists s. split; [exact V|]. rewrite Ht. cbn [rbind]. apply item_bind_panic. left. lia.
      * apply tags_at_spec in T. destruct T as (s7 & m' & V & Ht & _). right. exists s7. split; [exact V|]. rewrite Ht. cbn [rbind]. apply item_bind_panic. right. exists s.
        split; [exact V8|]. apply try_panic. left. now apply members_panic.
  - split; [discriminate|]. intros ([K|[K|K]] & _); contradiction.
Qed.

(** ** Files *)

Lemma trim_stripped s : stripped s (trim s).
Proof.
  assert (TS : forall s, exists a, s = a ++ trim_start s /\ Forall white a /\ forall c r, trim_start s = c :: r -> ~ white c).
  { clear. induction s as [|c s (a & E & W & H)]; cbn [trim_start]; [exists []; repeat split; [constructor|discriminate]|].
    destruct (is_ws c) eqn:Ec.
    - exists (c :: a). split; [cbn [app]; congruence|]. split; [constructor; [now apply is_ws_white|exact W]|exact H].
    - exists []. repeat split; [constructor|]. intros c' r [= <- _] Hw. apply is_ws_white in Hw. congruence. }
  unfold trim. destruct (TS s) as (a & E & Wa & Ha). destruct (TS (rev (trim_start s))) as (b & E2 & Wb & Hb).
  set (t := trim_start (rev (trim_start s))) in *. assert (E3 : trim_start s = rev t ++ rev b) by (rewrite <- rev_app_distr, <- E2; symmetry; apply rev_involutive).
  exists a, (rev b). split; [rewrite <- E3; exact E|]. split; [exact Wa|]. split; [now apply Forall_rev|]. split.
  - intros c r Hr. apply (Ha c (r ++ rev b)). rewrite E3, Hr. reflexivity.
  - intros c r Hr. apply (Hb c (rev r)). rewrite <- (rev_involutive t), Hr, rev_app_distr. reflexivity.
Qed.
Lemma stripped_trim s t : stripped s t -> trim s = t.
Proof.
  intros (a & b & -> & Wa & Wb & H1 & H2). destruct t as [|c t].
  - cbn [app]. unfold trim. rewrite trim_start_white by exact Wa. rewrite <- (app_nil_r b). rewrite trim_start_white by exact Wb. reflexivity.
  - apply trim_exact; [exact Wa|exact Wb|]. destruct t as [|d t] using rev_ind.
    + exists c, [], c. split; [left; now split|]. split; now apply (H1 c []).
    + exists c, t, d. split; [now right|]. split; [now apply (H1 c (t ++ [d]))|now apply (H2 d (c :: t))].
Qed.

(** What a line of a file is decoded to. *)
Definition line_yields (l : bytes) (r : result (oobj C)) : Prop :=
  (exists t, line_text l t /\ decode_line parse_lon parse_lat t = r) \/ ((forall t, ~ line_text l t) /\ r = Ret None).

Lemma yields_next l : line_yields l (match utf8_decode l with None => Ret None | Some line => decode_line parse_lon parse_lat (trim line) end).
Proof.
  unfold line_yields, line_text. destruct (utf8_decode l) as [s|] eqn:E.
  - left. apply utf8_decode_inv in E. destruct E as (V & ->). exists (trim s). split; [|reflexivity]. exists s. split; [exact V|]. split; [reflexivity|apply trim_stripped].
  - right. split; [|reflexivity]. intros t (s & V & -> & _). rewrite utf8_decode_encode in E by exact V. discriminate.
Qed.
Lemma yields_fun l r r' : line_yields l r -> line_yields l r' -> r = r'.
Proof.
  intros [(t & (s & V & E & S) & <-)|(N & ->)] [(t' & (s' & V' & E' & S') & <-)|(N' & ->)].
  - assert (s = s') by (apply utf8_inj; congruence). subst s'. apply stripped_trim in S, S'. now subst.
  - exfalso. apply (N' t). exists s. auto.
  - exfalso. apply (N t'). exists s'. auto.
  - reflexivity.
Qed.

Lemma take_line_lines b ls : lines b ls -> take_line b = match ls with [] => ([], []) | l :: _ => (l, skipn (length l) b) end
  /\ match ls with [] => b = [] | l :: ls' => l <> [] /\ b = l ++ skipn (length l) b /\ lines (skipn (length l) b) ls' end.
Proof.
  destruct 1 as [|l Hn H|l r ls H HL].
  - split; reflexivity.
  - assert (T : forall b, ~ In 10 b -> take_line b = (b, [])).
    { intros x. induction x as [|y x IH]; intros Hx; [reflexivity|]. cbn [take_line]. cbn [In] in Hx. replace (y =? 10) with false by lia. rewrite IH by tauto. reflexivity. }
    rewrite skipn_all. split; [now apply T|]. split; [exact Hn|]. split; [now rewrite app_nil_r|constructor].
  - replace (skipn (length (l ++ [10])) (l ++ [10] ++ r)) with r.
    + cbn [app]. rewrite take_line_app by exact H. split; [reflexivity|]. split; [destruct l; discriminate|]. split; [now rewrite <- app_assoc|exact HL].
    + rewrite app_assoc, skipn_app, skipn_all, Nat.sub_diag. reflexivity.
Qed.

Lemma opl_all_step f b ls : lines b ls -> forall l ls', ls = l :: ls' -> forall r, line_yields l r ->
  opl_all parse_lon parse_lat (S f) b = (do o <- r; match o with None => Ret [] | Some o => do os <- opl_all parse_lon parse_lat f (skipn (length l) b); Ret (o :: os) end).
Proof.
  intros HL l ls' -> r Hr. destruct (take_line_lines b _ HL) as (T & _). cbn [opl_all]. unfold opl_next. rewrite T.
  now rewrite (yields_fun _ _ _ Hr (yields_next l)).
Qed.
Lemma opl_all_end f : opl_all parse_lon parse_lat f [] = Ret [].
Proof. destruct f; reflexivity. Qed.

Lemma opl_all_spec ls : forall f b, lines b ls -> (length b < f)%nat ->
  (forall os, opl_all parse_lon parse_lat f b = Ret os <->
     exists good rest, ls = good ++ rest /\ Forall2 (fun l o => line_yields l (Ret (Some o))) good os /\
       (rest = [] \/ exists l rest', rest = l :: rest' /\ line_yields l (Ret None))) /\
  (opl_all parse_lon parse_lat f b = Panic <->
     exists good l rest, ls = good ++ l :: rest /\ Forall (fun l => exists o, line_yields l (Ret (Some o))) good /\ line_yields l Panic).
Proof.
  induction ls as [|l ls IH]; intros f b HL Hf; pose proof (take_line_lines b _ HL) as (_ & T).
  - subst b. rewrite opl_all_end. split.
    + intros os. split; [intros [= <-]; exists [], []; repeat split; [constructor|now left]|].
      intros (g & r & E & HF & _). destruct g; [inversion HF; reflexivity|discriminate E].
    + split; [discriminate|]. intros ([|? ?] & ? & ? & [=] & _).
  - destruct T as (Hn & E & HL'). destruct f as [|f]; [lia|]. pose proof (yields_next l) as Y.
    set (r := match utf8_decode l with None => Ret None | Some line => decode_line parse_lon parse_lat (trim line) end) in *. clearbody r.
    rewrite (opl_all_step f b _ HL l ls eq_refl r Y).
    assert (Hf' : (length (skipn (length l) b) < f)%nat).
    { apply (f_equal (@length Z)) in E. rewrite app_length in E. destruct l; [congruence|]. cbn [length] in *. lia. }
    destruct (IH f _ HL' Hf') as (IH1 & IH2). destruct r as [[o|]|]; cbn [obind].
    + destruct (opl_all parse_lon parse_lat f (skipn (length l) b)) as [os'|] eqn:Eo; cbn [obind]; split.
      * intros os. split.
        -- intros [= <-]. destruct (proj1 (IH1 os') eq_refl) as (g & rest & -> & HF & HR). exists (l :: g), rest. split; [reflexivity|]. split; [now constructor|exact HR].
        -- intros (g & rest & EL & HF & HR). destruct g as [|l0 g].
           ++ destruct HR as [->|(l1 & rest' & -> & Y1)]; [discriminate EL|]. injection EL as <- _. pose proof (yields_fun _ _ _ Y Y1). discriminate.
           ++ injection EL as <- ->. inversion HF as [|? o' ? os'' Y1 HF']; subst. assert (o' = o) by (pose proof (yields_fun _ _ _ Y Y1); congruence). subst o'.
              assert (X : Ret os' = Ret os'') by (apply IH1; exists g, rest; auto). now injection X as ->.
      * split; [discriminate|]. intros (g & l0 & rest & EL & HF & Y0). destruct g as [|l1 g].
        -- injection EL as <- _. pose proof (yields_fun _ _ _ Y Y0). discriminate.
        -- injection EL as <- ->. inversion HF; subst. assert (X : @Ret (list (oobj C)) os' = Panic) by (apply IH2; exists g, l0, rest; auto). discriminate X.
      * intros os. split; [discriminate|]. intros (g & rest & EL & HF & HR). exfalso. destruct g as [|l0 g].
        -- destruct HR as [->|(l1 & rest' & -> & Y1)]; [discriminate EL|]. injection EL as <- _. pose proof (yields_fun _ _ _ Y Y1). discriminate.
        -- injection EL as <- ->. inversion HF as [|? o' ? os'' Y1 HF']; subst.
           assert (X : @Panic (list (oobj C)) = Ret os'') by (apply IH1; exists g, rest; auto). discriminate X.
      * split; [|reflexivity]. intros _. destruct (proj1 IH2 eq_refl) as (g & l0 & rest & -> & HF & Y0). exists (l :: g), l0, rest. split; [reflexivity|]. split; [constructor; eauto|exact Y0].
    + split.
      * intros os. split; [intros [= <-]; exists [], (l :: ls); split; [reflexivity|]; split; [constructor|right; eauto]|].
        intros (g & rest & EL & HF & HR). destruct g as [|l0 g]; [inversion HF; reflexivity|]. injection EL as <- ->. inversion HF as [|? o' ? os'' Y1 HF']; subst.
        pose proof (yields_fun _ _ _ Y Y1). discriminate.
      * split; [discriminate|]. intros (g & l0 & rest & EL & HF & Y0). destruct g as [|l1 g].
        -- injection EL as <- _. pose proof (yields_fun _ _ _ Y Y0). discriminate.
        -- injection EL as <- ->. inversion HF as [|? ? (o' & Y1) HF']; subst. pose proof (yields_fun _ _ _ Y Y1). discriminate.
    + split.
      * intros os. split; [discriminate|]. intros (g & rest & EL & HF & HR). exfalso. destruct g as [|l0 g].
        -- destruct HR as [->|(l1 & rest' & -> & Y1)]; [discriminate EL|]. injection EL as <- _. pose proof (yields_fun _ _ _ Y Y1). discriminate.
        -- injection EL as <- ->. inversion HF as [|? o' ? os'' Y1 HF']; subst. pose proof (yields_fun _ _ _ Y Y1). discriminate.
      * split; [|reflexivity]. intros _. exists [], l, ls. auto.
Qed.

(** Every sequence of bytes is read as its lines say, up to the first one that is not
    an object: there the iteration ends, or panics.  So all objects are yielded exactly
    if every line is one. *)
Theorem C66_exact : forall b ls, lines b ls ->
  (forall os, opl_objects parse_lon parse_lat b = Ret os <->
     exists good rest, ls = good ++ rest /\ Forall2 (fun l o => line_yields l (Ret (Some o))) good os /\
       (rest = [] \/ exists l rest', rest = l :: rest' /\ line_yields l (Ret None))) /\
  (opl_objects parse_lon parse_lat b = Panic <->
     exists good l rest, ls = good ++ l :: rest /\ Forall (fun l => exists o, line_yields l (Ret (Some o))) good /\ line_yields l Panic).
Proof. intros b ls H. apply opl_all_spec; [exact H|lia]. Qed.
Theorem C66_lines : forall b, exists ls, lines b ls /\ forall ls', lines b ls' -> ls' = ls.
Proof.
  assert (X : forall n b, (length b <= n)%nat -> exists ls, lines b ls).
  { induction n as [|n IH]; intros b Hb; [destruct b; [eexists; constructor|cbn in Hb; lia]|].
    destruct (no_or_split 10 b) as [N|(l & r & -> & N)].
    - destruct b; [eexists; constructor|]. eexists. apply ln_last; [discriminate|exact N].
    - rewrite app_length in Hb. cbn [length] in Hb. destruct (IH r) as (ls & H); [lia|]. eexists. change (l ++ 10 :: r) with (l ++ [10] ++ r). apply ln_line; [exact N|exact H]. }
  intros b. destruct (X (length b) b (le_n _)) as (ls & H). exists ls. split; [exact H|].
  clear X. revert b H. induction ls as [|l ls IH]; intros b H ls' H'; destruct (take_line_lines b _ H) as (T & U); destruct (take_line_lines b _ H') as (T' & U').
  - subst b. destruct ls'; [reflexivity|]. destruct U' as (Hn & E & _). destruct l; [congruence|discriminate E].
  - destruct U as (Hn & E & HL). destruct ls' as [|l' ls']; [subst b; destruct l; [congruence|discriminate E]|].
    destruct U' as (Hn' & E' & HL'). assert (l = l') by congruence. subst l'. f_equal. exact (IH _ HL _ HL').
Qed.
End Line.
Print Assumptions C53_exact.
Print Assumptions C54_exact.
Print Assumptions C66_exact.
Print Assumptions C66_lines.

Definition ex_file : bytes := lit "w17 v2 dV c5 t i9 ujo Tname=a%20%b,x=1,x=2%zz N!4,n-5 ?" ++ [13; 10] ++ lit "r1 v1 dD c1 t i1 u T Mn1@" ++ [10; 10] ++ lit "n".
Example C53_exact_ex :
  says parse_i64 parse_i64 (lit "w17 v2 dV c5 t i9 ujo Tname=a%20%b,x=1,x=2%zz N!4,n-5 ?")
    (OWay (OM 17 2 false 5 [] 9 (lit "jo")) [(lit "x", lit "2"); (lit "name", lit "a b")] [4; -5]) /\
  ~ (exists o, says parse_i64 parse_i64 (lit "w17 v2 dV c5 t i9 ujo T N") o) /\
  crashes parse_i64 (lit "r1 v dV c t i u Ta=b Mn1@x,n2") /\ ~ crashes parse_i64 (lit "r1 v dV c t i u Ta=b Mn@x,n2").
Proof.
  split; [|split; [|split]].
  - apply C53_exact. eexists. split; [vm_compute; reflexivity|]. cbn. repeat split. apply perm_swap.
  - intros (o & H). apply C53_exact in H. destruct H as (o' & H & _). vm_compute in H. discriminate H.
  - apply (C54_exact Z parse_i64 parse_i64). vm_compute. reflexivity.
  - intros H. apply (C54_exact Z parse_i64 parse_i64) in H. vm_compute in H. discriminate H.
Qed.
Example C66_exact_ex :
  opl_objects parse_i64 parse_i64 ex_file = Ret [OWay (OM 17 2 false 5 [] 9 (lit "jo")) [(lit "name", lit "a b"); (lit "x", lit "2")] [4; -5];
    ORel (OM 1 1 true 1 [] 1 []) [] [(chr "n", 1, [])]].
Proof. vm_compute. reflexivity. Qed.
