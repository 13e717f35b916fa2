(** C51, C52, C66 continued and C77: the texts of the OPL format. *)
From Coq Require Import String ZArith List Bool Lia.
From Coq Require Import ZifyBool ZifyNat.
From Verif Require Import Base SpecNum Ints Utf8 Opl OplFacts SpecOpl PropsOpl.
Import ListNotations.
Open Scope Z_scope.

(** ** C51: the text of a string *)
Theorem C51_text : forall s, encode_string s = flat_map spelling s.
Proof.
  intros s. rewrite encode_string_chars. apply flat_map_ext. intros c. unfold enc_char, spelling. cbn [existsb].
  change (chr " ") with 32. change (chr ",") with 44. change (chr "=") with 61. change (chr "@") with 64.
  destruct (c =? 32) eqn:E1; [replace c with 32 by lia; reflexivity|]. destruct (c =? 10) eqn:E2; [replace c with 10 by lia; reflexivity|].
  destruct (c =? 44) eqn:E3; [replace c with 44 by lia; reflexivity|]. destruct (c =? 61) eqn:E4; [replace c with 61 by lia; reflexivity|].
  destruct (c =? 64) eqn:E5; [replace c with 64 by lia; reflexivity|].
  first [reflexivity | replace c with c by lia; rewrite ?E1, ?E2, ?E3, ?E4, ?E5; reflexivity].
Qed.
Print Assumptions C51_text.

(** ** C77 *)

Lemma hex_digit_value c d : hex_digit c = Some d <-> digit_value c d.
Proof.
  split.
  - intros H. assert (R : In c (map Z.of_nat (seq 48 55))).
    { apply in_map_iff. exists (Z.to_nat c). rewrite in_seq. unfold hex_digit in H.
      destruct ((48 <=? c) && (c <=? 57)) eqn:E1; [lia|]. destruct ((65 <=? c) && (c <=? 70)) eqn:E2; [lia|].
      destruct ((97 <=? c) && (c <=? 102)) eqn:E3; [lia|discriminate]. }
    cbn in R. repeat (destruct R as [<-|R]; [cbn in H; first [discriminate H | injection H as H; exists (Z.to_nat d); rewrite <- H; split; [reflexivity|vm_compute; auto]]|]).
    contradiction.
  - intros (n & -> & H).
    do 16 (destruct n as [|n]; [cbn in H; destruct H as [[= <-]|[= <-]]; reflexivity|]).
    exfalso. cbn in H. destruct n; destruct H; discriminate.
Qed.
Lemma digit_range c d : digit_value c d -> 0 <= d < 16.
Proof.
  intros (n & -> & H). destruct (Nat.lt_ge_cases n 16) as [L|L]; [lia|]. exfalso.
  destruct H as [H|H]; (rewrite (proj2 (nth_error_None _ _)) in H; [discriminate|exact L]).
Qed.
Lemma digit_char c d : digit_value c d -> c <> 37 /\ c <> 43.
Proof. intros H. apply hex_digit_value in H. split; intros ->; discriminate. Qed.
Lemma hex_number_nonneg b v : hex_number b v -> 0 <= v.
Proof. induction 1 as [c d H|s v c d _ IH H]; apply digit_range in H; lia. Qed.
Lemma hex_number_ne b v : hex_number b v -> b <> [].
Proof. destruct 1; [discriminate|]. destruct s; discriminate. Qed.
Lemma hex_number_chars b v : hex_number b v -> ~ In 37 b /\ ~ In 43 b.
Proof.
  induction 1 as [c d H|s v c d _ (I1 & I2) H]; apply digit_char in H; rewrite ?in_app_iff; cbn [In]; intuition.
Qed.

Lemma hex_loop_snoc s : forall acc c, hex_loop acc (s ++ [c]) =
  opt_bind (hex_loop acc s) (fun a => opt_bind (hex_digit c) (fun d => if a * 16 + d <? 2^32 then Some (a * 16 + d) else None)).
Proof.
  induction s as [|x s IH]; intros acc c; cbn [app hex_loop opt_bind]; [destruct (hex_digit c); cbn [opt_bind]; [destruct (_ <? _)|]; reflexivity|].
  destruct (hex_digit x) as [d|]; [|reflexivity]. destruct (acc * 16 + d <? 2^32); [apply IH|reflexivity].
Qed.
Lemma hex_loop_number : forall b v, b <> [] -> (hex_loop 0 b = Some v <-> hex_number b v /\ v < 2^32).
Proof.
  induction b as [|c b IH] using rev_ind; intros v Hn; [congruence|]. rewrite hex_loop_snoc. destruct b as [|x b].
  - cbn [hex_loop opt_bind app]. split.
    + destruct (hex_digit c) as [d|] eqn:E; cbn [opt_bind]; [|discriminate]. destruct (0 * 16 + d <? 2^32) eqn:L; [|discriminate].
      intros [= <-]. split; [constructor; apply hex_digit_value; exact E|lia].
    + intros (H & L). inversion H as [c0 d0 D E1 E2|s v0 c0 d0 Hs D E1 E2]; subst.
      * rewrite (proj2 (hex_digit_value _ _) D). cbn [opt_bind]. replace (0 * 16 + v <? 2^32) with true by lia. reflexivity.
      * exfalso. apply hex_number_ne in Hs. destruct s as [|? [|]]; discriminate || contradiction.
  - specialize (fun v => IH v ltac:(discriminate)). split.
    + destruct (hex_loop 0 (x :: b)) as [a|] eqn:E; cbn [opt_bind]; [|discriminate]. destruct (proj1 (IH a) eq_refl) as (E0 & L). clear E.
      destruct (hex_digit c) as [d|] eqn:Ed; cbn [opt_bind]; [|discriminate]. destruct (a * 16 + d <? 2^32) eqn:L'; [|discriminate].
      intros [= <-]. split; [|lia]. replace (a * 16 + d) with (16 * a + d) by lia. constructor; [exact E0|now apply hex_digit_value].
    + intros (H & L). inversion H as [c0 d0 D E1 E2|s v0 c0 d0 Hs D E1 E2]; subst; [destruct b; discriminate|].
      change (s ++ [c0] = (x :: b) ++ [c]) in E1. apply app_inj_tail in E1. destruct E1 as [-> ->].
      pose proof (hex_number_nonneg _ _ Hs). pose proof (digit_range _ _ D).
      rewrite (proj2 (IH v0)) by (split; [exact Hs|lia]). cbn [opt_bind]. rewrite (proj2 (hex_digit_value _ _) D). cbn [opt_bind].
      replace (v0 * 16 + d0) with (16 * v0 + d0) by lia. replace (16 * v0 + d0 <? 2^32) with true by lia. reflexivity.
Qed.

Lemma escaped_parse b c : escaped b c <-> opt_bind (parse_hex b) from_u32 = Some c.
Proof.
  unfold escaped, from_u32. split.
  - intros (Hs & H). assert (L : c < 2^32) by (unfold scalar in Hs; lia).
    assert (P : parse_hex b = Some c).
    { unfold parse_hex. destruct H as [H|(b' & -> & H)].
      - pose proof (hex_number_ne _ _ H). destruct b as [|x b]; [congruence|]. destruct (x =? 43) eqn:E.
        + exfalso. apply (proj2 (hex_number_chars _ _ H)). left. lia.
        + apply hex_loop_number; auto.
      - change (chr "+") with 43. rewrite Z.eqb_refl. pose proof (hex_number_ne _ _ H). destruct b' as [|x b]; [congruence|]. apply hex_loop_number; auto. }
    rewrite P. cbn [opt_bind]. now rewrite (proj2 (scalarb_iff c) Hs).
  - destruct (parse_hex b) as [v|] eqn:P; cbn [opt_bind]; [|discriminate]. destruct (scalarb v) eqn:S; [|discriminate]. intros [= <-].
    split; [now apply scalarb_iff|]. unfold parse_hex in P. destruct b as [|x b]; [discriminate|]. destruct (x =? 43) eqn:E.
    + right. exists b. change (chr "+") with 43. split; [f_equal; lia|]. destruct b; [discriminate|]. apply hex_loop_number in P; [tauto|discriminate].
    + left. apply hex_loop_number in P; [tauto|discriminate].
Qed.
Lemma escaped_chars b c : escaped b c -> ~ In 37 b.
Proof.
  intros (_ & [H|(b' & -> & H)]); apply hex_number_chars in H; [tauto|]. cbn [In]. change (chr "+") with 43. intros [E|E]; [lia|tauto].
Qed.

Lemma dec_str_body b : forall acc, ~ In 37 b -> forall s, dec_str (Some acc) (b ++ 37 :: s) =
  opt_bind (opt_bind (parse_hex (acc ++ b)) from_u32) (fun c => opt_map (cons c) (dec_str None s)).
Proof.
  induction b as [|x b IH]; intros acc Hb s.
  - cbn [app dec_str]. rewrite Z.eqb_refl, app_nil_r. destruct (parse_hex acc); reflexivity.
  - cbn [app dec_str]. replace (x =? 37) with false by (cbn [In] in Hb; lia). rewrite IH by (cbn [In] in Hb; tauto).
    now rewrite <- app_assoc.
Qed.

Lemma text_decodes s t : text_of s t -> forall r, dec_str None (s ++ r) = opt_map (app t) (dec_str None r).
Proof.
  induction 1 as [|c s t Hc _ IH|b c s t He _ IH]; intros r.
  - cbn [app]. destruct (dec_str None r); reflexivity.
  - cbn [app dec_str]. change (chr "%") with 37 in Hc. replace (c =? 37) with false by lia. rewrite IH. destruct (dec_str None r); reflexivity.
  - change (lit "%") with [37]. cbn [app dec_str]. rewrite Z.eqb_refl. rewrite <- app_assoc. cbn [app].
    rewrite dec_str_body by (eapply escaped_chars; exact He). cbn [app]. rewrite (proj1 (escaped_parse _ _) He). cbn [opt_bind].
    rewrite IH. destruct (dec_str None r); reflexivity.
Qed.

Lemma no_or_split (c : Z) s : ~ In c s \/ exists a b, s = a ++ c :: b /\ ~ In c a.
Proof.
  induction s as [|x s [IH|(a & b & -> & IH)]]; [now left| |].
  - destruct (Z.eq_dec x c) as [->|N]; [right; exists [], s; now split|]. left. cbn [In]. tauto.
  - right. destruct (Z.eq_dec x c) as [->|N]; [exists [], (a ++ c :: b); now split|]. exists (x :: a), b. split; [reflexivity|]. cbn [In]. tauto.
Qed.

Lemma decodes_text : forall n s t, (length s <= n)%nat -> dec_str None s = Some t ->
  text_of s t \/ exists a b, s = a ++ lit "%" ++ b /\ text_of a t /\ ~ In (chr "%") b.
Proof.
  change (lit "%") with [37]. change (chr "%") with 37.
  induction n as [|n IH]; intros s t L H; destruct s as [|c s]; cbn [length] in L; try lia; cbn [dec_str] in H.
  1-2: injection H as <-; left; constructor.
  destruct (c =? 37) eqn:E.
  - assert (c = 37) by lia. subst c. destruct (no_or_split 37 s) as [N|(b & s' & -> & N)].
    + rewrite dec_lost in H by exact N. injection H as <-. right. exists [], s. split; [reflexivity|]. split; [constructor|exact N].
    + rewrite dec_str_body in H by exact N. cbn [app] in H. destruct (opt_bind (parse_hex b) from_u32) as [c|] eqn:P; cbn [opt_bind] in H; [|discriminate].
      destruct (dec_str None s') as [t'|] eqn:D; [|discriminate]. injection H as <-. apply escaped_parse in P.
      rewrite app_length in L. cbn [length] in L. destruct (IH s' t' ltac:(lia) D) as [T|(a & b' & -> & T & N')].
      * left. exact (to_escape b c s' t' P T).
      * right. exists (37 :: b ++ 37 :: a), b'. split; [cbn [app]; rewrite <- app_assoc; reflexivity|]. split; [exact (to_escape b c a t' P T)|exact N'].
  - destruct (dec_str None s) as [t'|] eqn:D; [|discriminate]. injection H as <-. assert (c <> chr "%") by (change (chr "%") with 37; lia).
    destruct (IH s t' ltac:(lia) D) as [T|(a & b & -> & T & N)].
    + left. now constructor.
    + right. exists (c :: a), b. split; [reflexivity|]. split; [now constructor|exact N].
Qed.

(** Every OPL text is decoded to the string it stands for. *)
Theorem C77_texts_decoded : forall s t, text_of s t -> decode_string s = Some t.
Proof. intros s t H. unfold decode_string. rewrite <- (app_nil_r s), (text_decodes s t H). cbn. now rewrite app_nil_r. Qed.
Print Assumptions C77_texts_decoded.

(** Full statement: anything else is an error.  Proved: anything else that is accepted
    is an OPL text followed by an escape that is not closed. *)
Theorem C77_rejects_partial : forall s t, decode_string s = Some t ->
  text_of s t \/ exists a b, s = a ++ lit "%" ++ b /\ text_of a t /\ ~ In (chr "%") b.
Proof. intros s t H. exact (decodes_text (length s) s t (le_n _) H). Qed.
Print Assumptions C77_rejects_partial.

(** Those are indeed accepted, and what follows the percent sign is lost. *)
Theorem C77_open_refuted : forall a t b, text_of a t -> ~ In (chr "%") b -> decode_string (a ++ lit "%" ++ b) = Some t.
Proof.
  intros a t b H N. unfold decode_string. rewrite (text_decodes a t H). change (lit "%") with [37]. cbn [app dec_str].
  rewrite Z.eqb_refl, dec_lost by exact N. cbn. now rewrite app_nil_r.
Qed.
Print Assumptions C77_open_refuted.

Example C77_ex : text_of (lit "a%20%b%+1f600%%E9%") [97; 32; 98; 128512; 233]
  /\ decode_string (lit "a%2x%") = None /\ decode_string (lit "%%") = None /\ decode_string (lit "%D800%") = None
  /\ decode_string (lit "50% of it") = Some (lit "50").
Proof.
  split; [|vm_compute; auto].
  assert (E : forall b c, opt_bind (parse_hex b) from_u32 = Some c -> escaped b c) by (intros b c; apply escaped_parse).
  constructor; [discriminate|].
  apply (to_escape (lit "20") 32 (lit "b%+1f600%%E9%")); [apply E; reflexivity|]. constructor; [discriminate|].
  apply (to_escape (lit "+1f600") 128512 (lit "%E9%")); [apply E; reflexivity|].
  apply (to_escape (lit "E9") 233 []); [apply E; reflexivity|]. constructor.
Qed.

(** ** C52: the texts of lists *)

(** The parts between the commas: key=value for a tag, n and the number for a node
    of a way, type, number, @ and role for a member. *)
Theorem C52_texts :
  (forall l, l <> [] -> parts (chr ",") (encode_tags l) (map (fun kv => flat_map spelling (fst kv) ++ lit "=" ++ flat_map spelling (snd kv)) l)) /\
  (forall l, l <> [] -> parts (chr ",") (encode_way_nodes l) (map (fun n => lit "n" ++ show_int n) l)) /\
  (forall l, l <> [] -> (forall t id role, In (t, id, role) l -> t <> chr "," /\ ~ In (chr ",") role) ->
     parts (chr ",") (encode_members l) (map (fun '(t, id, role) => [t] ++ show_int id ++ lit "@" ++ role) l)) /\
  encode_tags [] = [] /\ encode_way_nodes [] = [] /\ encode_members [] = [].
Proof.
  assert (NE : forall A B (f : A -> B) l, l <> [] -> map f l <> []) by (intros A B f [|]; [congruence|discriminate]).
  split; [|split; [|split; [|now repeat split]]].
  - intros l Hl. split; [now apply NE|]. split.
    + apply Forall_forall. intros x Hx. apply in_map_iff in Hx. destruct Hx as ([k v] & <- & _). cbn [fst snd].
      rewrite <- !C51_text, !in_app_iff. intros [H|[H|H]]; [| |]; [|cbn in H; lia|];
        (apply encode_no_special in H; [exact H|unfold special; cbn; lia]).
    + unfold encode_tags. change (chr ",") with 44. f_equal. apply map_ext. intros [k v]. cbn [fst snd]. now rewrite !C51_text.
  - intros l Hl. split; [now apply NE|]. split; [|reflexivity].
    apply Forall_forall. intros x Hx. apply in_map_iff in Hx. destruct Hx as (n & <- & _). change (lit "n") with [110]. cbn [app In]. change (chr ",") with 44.
    intros [H|H]; [lia|]. apply show_int_no in H; [exact H|unfold is_digit; lia|lia].
  - intros l Hl H. split; [now apply NE|]. split; [|reflexivity].
    apply Forall_forall. intros x Hx. apply in_map_iff in Hx. destruct Hx as ([[t id] role] & <- & Hi). destruct (H _ _ _ Hi) as (Ht & Hr).
    change (chr ",") with 44 in *. change (lit "@") with [64]. rewrite !in_app_iff. cbn [In]. intros [[Q|[]]|[Q|[[Q|[]]|Q]]]; [congruence| |lia|exact (Hr Q)].
    apply show_int_no in Q; [exact Q|unfold is_digit; lia|lia].
Qed.
Print Assumptions C52_texts.
Example C52_texts_ex : encode_tags [(lit "a b", lit "c")] = lit "a%20%b=c" /\ encode_way_nodes [7; -12] = lit "n7,n-12" /\
  encode_members [(chr "w", 7, lit "outer"); (chr "n", -1, lit "")] = lit "w7@outer,n-1@".
Proof. vm_compute. auto. Qed.

(** ** C66: white space around a line *)

Lemma is_ws_white c : is_ws c = true <-> white c.
Proof.
  unfold is_ws, white. cbn [In]. split; intros H; [|repeat (destruct H as [<-|H]; [reflexivity|]); contradiction].
  assert (c = 9 \/ c = 10 \/ c = 11 \/ c = 12 \/ c = 13 \/ c = 32 \/ c = 133 \/ c = 160 \/ c = 5760 \/ (8192 <= c <= 8202) \/ c = 8232 \/ c = 8233 \/ c = 8239 \/ c = 8287 \/ c = 12288) by lia.
  lia.
Qed.
Lemma trim_start_white a : Forall white a -> forall s, trim_start (a ++ s) = trim_start s.
Proof. induction 1 as [|c a H _ IH]; intros s; [reflexivity|]. cbn [app trim_start]. now rewrite (proj2 (is_ws_white c) H). Qed.
Lemma trim_start_stop c s : ~ white c -> trim_start (c :: s) = c :: s.
Proof. intros H. cbn [trim_start]. destruct (is_ws c) eqn:E; [apply is_ws_white in E; contradiction|reflexivity]. Qed.

(** A text that is not blank: it starts and ends with characters that are not white. *)
Definition trimmed (l : str) : Prop := exists c m d, (l = [c] /\ c = d \/ l = c :: m ++ [d]) /\ ~ white c /\ ~ white d.

Lemma trim_exact a l b : Forall white a -> Forall white b -> trimmed l -> trim (a ++ l ++ b) = l.
Proof.
  intros Ha Hb (c & m & d & Hl & Hc & Hd). unfold trim. rewrite trim_start_white by exact Ha.
  assert (E : exists l', l = c :: l') by (destruct Hl as [[-> _]| ->]; eauto). destruct E as (l' & E).
  rewrite E at 1. cbn [app]. rewrite trim_start_stop by exact Hc. change (c :: l' ++ b) with ((c :: l') ++ b). rewrite <- E.
  rewrite rev_app_distr, trim_start_white by now apply Forall_rev.
  assert (E' : exists l'', rev l = d :: l'') by (destruct Hl as [[-> <-]| ->]; [eauto|]; cbn [rev]; rewrite rev_app_distr; cbn [rev app]; eauto).
  destruct E' as (l'' & E'). rewrite E', trim_start_stop by exact Hd. rewrite <- E'. apply rev_involutive.
Qed.

Lemma white_scalar c : white c -> scalar c.
Proof. unfold white. cbn [In]. intros H. unfold scalar. lia. Qed.

(** A line is decoded without the white space around it, and without more than that. *)
Theorem C66_trimmed : forall C (parse_lon parse_lat : str -> option C) a l b rest,
  Forall white a -> Forall white b -> trimmed l -> valid_str l -> ~ In 10 (a ++ l ++ b) ->
  opl_next parse_lon parse_lat (utf8 (a ++ l ++ b) ++ [10] ++ rest) = (decode_line parse_lon parse_lat l, rest) /\
  opl_next parse_lon parse_lat (utf8 (a ++ l ++ b)) = (decode_line parse_lon parse_lat l, []).
Proof.
  intros C plon plat a l b rest Ha Hb Hl Hv H10.
  assert (V : valid_str (a ++ l ++ b)).
  { unfold valid_str in *. rewrite !Forall_app. repeat split; [|exact Hv|]; eapply Forall_impl; try eassumption; apply white_scalar. }
  pose proof (utf8_no10 _ V H10) as N. split; unfold opl_next.
  - cbn [app]. rewrite take_line_app by exact N. change [10] with (utf8 [10]). rewrite <- utf8_app, utf8_decode_encode.
    + rewrite <- !app_assoc. rewrite trim_exact; [reflexivity|exact Ha| |exact Hl]. apply Forall_app. split; [exact Hb|]. constructor; [right; now left|constructor].
    + unfold valid_str in *. apply Forall_app. split; [exact V|]. repeat constructor. unfold scalar. lia.
  - assert (T : forall b, ~ In 10 b -> take_line b = (b, [])).
    { intros x. induction x as [|y x IH]; intros Hx; [reflexivity|]. cbn [take_line]. cbn [In] in Hx. replace (y =? 10) with false by lia. rewrite IH by tauto. reflexivity. }
    rewrite T by exact N. rewrite utf8_decode_encode by exact V. now rewrite trim_exact.
Qed.
Print Assumptions C66_trimmed.

(** A line that is not text ends the iteration like the end of the file. *)
Theorem C66_not_text_refuted : forall C (parse_lon parse_lat : str -> option C) l rest,
  ~ In 10 l -> (forall s, valid_str s -> utf8 s <> l ++ [10]) ->
  opl_next parse_lon parse_lat (l ++ [10] ++ rest) = (Ret None, rest).
Proof.
  intros C plon plat l rest N H. unfold opl_next. cbn [app]. rewrite take_line_app by exact N.
  destruct (utf8_decode (l ++ [10])) as [s|] eqn:E; [|reflexivity]. exfalso. apply utf8_decode_inv in E. destruct E as (E1 & E2). apply (H s); auto.
Qed.
Print Assumptions C66_not_text_refuted.
Example C66_trimmed_ex : let l := way_line ex_meta [] [4; 5] in
  trimmed l /\ valid_str l /\ ~ In 10 ([9; 160] ++ l ++ [13]) /\ Forall white [9; 160] /\ Forall white [13].
Proof.
  cbv zeta. split; [|split; [|split; [|split; repeat constructor; vm_compute; tauto]]].
  - exists 119, (removelast (tl (way_line ex_meta [] [4; 5]))), (last (way_line ex_meta [] [4; 5]) 0).
    split; [right; vm_compute; reflexivity|]. split; intros H; vm_compute in H; repeat (destruct H as [H|H]; [discriminate|]); exact H.
  - apply Forall_forall. intros c Hc. apply scalarb_iff.
    assert (F : forallb scalarb (way_line ex_meta [] [4; 5]) = true) by (vm_compute; reflexivity).
    rewrite forallb_forall in F. exact (F c Hc).
  - vm_compute. intros H. repeat (destruct H as [H|H]; [discriminate|]). exact H.
Qed.
