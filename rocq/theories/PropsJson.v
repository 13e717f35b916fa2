(** C20, C63: tags as JSON. *)
From Coq Require Import String ZArith List Bool Lia.
From Verif Require Import Base Timestamp Obj ObjFacts Json SpecJson JsonFacts.
Import ListNotations.
Open Scope Z_scope.

(** ** C20 *)

Theorem C20_json_string : forall o, valid_tags (s_tags o) ->
  exists m, parse_json (s_tags_json o) = Some (JObj m)
    /\ NoDup (map fst m)
    /\ forall k, member_value m k = opt_map JStr (last_value (s_tags o) k).
Proof.
  intros o H. apply tags_json_parse; [now apply valid_tags_nonneg|].
  unfold s_untagged, s_num_tags. rewrite Nat.eqb_eq. apply length_zero_iff_nil.
Qed.
Print Assumptions C20_json_string.

Theorem C20_json_arc_rc : forall o, valid_tags (a_tags o) ->
  exists m, parse_json (a_tags_json o) = Some (JObj m)
    /\ NoDup (map fst m)
    /\ forall k, member_value m k = opt_map JStr (last_value (a_tags o) k).
Proof.
  intros o H. apply tags_json_parse; [now apply valid_tags_nonneg|].
  rewrite a_untagged_eq, a_num_tags_eq, Nat.eqb_eq. apply length_zero_iff_nil.
Qed.
Print Assumptions C20_json_arc_rc.

Definition ex_json_meta : meta := Meta 7 None false None None None None.
Definition ex_json : sobj :=
  SWay (SW ex_json_meta [(lit "name", lit "a""b\c" ++ [1; 10; 31; 127; 233; 128512]);
                         (lit "", lit "x"); (lit "name2", []); (lit "", lit "y")] []).
Example C20_ex : valid_tags (s_tags ex_json)
  /\ s_tags_json ex_json
     = lit "{"""":""y"",""name"":""a\""b\\c\u0001\n\u001f" ++ [127; 233; 128512] ++ lit """,""name2"":""""}"
  /\ parse_json (s_tags_json ex_json)
     = Some (JObj [([], JStr (lit "y")); (lit "name", JStr (lit "a""b\c" ++ [1; 10; 31; 127; 233; 128512]));
                   (lit "name2", JStr [])]).
Proof.
  split; [|split; reflexivity].
  repeat constructor; cbn; repeat constructor; unfold scalar; lia.
Qed.

(** ** C63 *)

Lemma last_value_none (t : list (str * str)) k : ~ In k (map fst t) -> forall cur : option str,
  fold_left (fun cur p => if str_eq_dec (fst p) k then Some (snd p) else cur) t cur = cur.
Proof.
  induction t as [|[k0 v0] t IH]; cbn [map fst snd fold_left]; intros H cur; [easy|]; cbn [In] in H.
  destruct (str_eq_dec k0 k) as [E|E]; [tauto|]. apply IH. tauto.
Qed.
Lemma tags_get_cons k k0 v0 t :
  tags_get k ((k0, v0) :: t) = if str_eqb k0 k then Some v0 else tags_get k t.
Proof. unfold tags_get. cbn. destruct (str_eqb k0 k); reflexivity. Qed.
Lemma last_value_get t k : NoDup (map fst t) -> last_value t k = tags_get k t.
Proof.
  unfold last_value. intros H.
  induction t as [|[k0 v0] t IH]; [reflexivity|]. cbn in H. inversion H; subst.
  rewrite tags_get_cons. cbn [fold_left fst snd]. destruct (str_eq_dec k0 k) as [->|E].
  - rewrite str_eqb_refl. now apply last_value_none.
  - apply str_eqb_neq in E. rewrite E. now apply IH.
Qed.

(** Full statement: for every object, every member of the JSON text has the
    value tag() returns for that key.  It holds for objects whose keys are
    distinct: *)
Theorem C63_json_agrees_partial : forall o, valid_tags (s_tags o) -> NoDup (map fst (s_tags o)) ->
  exists m, parse_json (s_tags_json o) = Some (JObj m)
    /\ forall k, member_value m k = opt_map JStr (s_tag o k).
Proof.
  intros o H HN. destruct (C20_json_string o H) as (m & A & _ & B). exists m.
  split; [exact A|]. intros k. now rewrite B, s_tag_eq, last_value_get.
Qed.
Print Assumptions C63_json_agrees_partial.

Theorem C63_json_agrees_arc_rc_partial : forall o, valid_tags (a_tags o) -> NoDup (map fst (a_tags o)) ->
  exists m, parse_json (a_tags_json o) = Some (JObj m)
    /\ forall k, member_value m k = opt_map JStr (a_tag o k).
Proof.
  intros o H HN. destruct (C20_json_arc_rc o H) as (m & A & _ & B). exists m.
  split; [exact A|]. intros k. now rewrite B, a_tag_eq, last_value_get.
Qed.
Print Assumptions C63_json_agrees_arc_rc_partial.

(** An object read from a file may repeat a key: then tag() returns the first
    value and the JSON text has the last, whatever the key and the values. *)
Theorem C63_json_agrees_refuted : forall k v w id,
  valid_str k -> valid_str v -> valid_str w -> v <> w ->
  let o := SWay (SW (Meta id None false None None None None) [(k, v); (k, w)] []) in
  exists m, parse_json (s_tags_json o) = Some (JObj m)
    /\ s_tag o k = Some v /\ member_value m k = Some (JStr w).
Proof.
  intros k v w id Hk Hv Hw Hne o.
  assert (Ht : valid_tags (s_tags o)) by (repeat constructor; assumption).
  destruct (C20_json_string o Ht) as (m & A & _ & B). exists m. split; [exact A|].
  split.
  - rewrite s_tag_eq. cbn [o s_tags sw_tags]. now rewrite tags_get_cons, str_eqb_refl.
  - rewrite B. unfold last_value. cbn [o s_tags sw_tags fold_left fst snd].
    destruct (str_eq_dec k k); [reflexivity|congruence].
Qed.
Print Assumptions C63_json_agrees_refuted.

Example C63_ex : let o := SWay (SW ex_json_meta [(lit "b", lit "1"); (lit "a", lit "2")] []) in
  valid_tags (s_tags o) /\ NoDup (map fst (s_tags o)) /\ s_tags_json o = lit "{""a"":""2"",""b"":""1""}".
Proof.
  split; [|split; [|reflexivity]].
  - repeat constructor; cbn; repeat constructor; unfold scalar; lia.
  - cbn. constructor; [|constructor; [|constructor]]; cbn; intros H; intuition discriminate.
Qed.
