(** UTF-8: how Rust strings (sequences of scalar values) become bytes and how
    std::str::from_utf8 reads them.  Used wherever a &str reaches a byte sink or
    a byte buffer becomes a string. *)
From Coq Require Import ZArith List Bool Lia.
From Coq Require Import ZifyBool ZifyNat.
From Verif Require Import Base.
Import ListNotations.
Open Scope Z_scope.

(** char::encode_utf8. *)
Definition utf8_char (c : char) : bytes :=
  if c <? 128 then [c]
  else if c <? 2048 then [192 + c / 64; 128 + c mod 64]
  else if c <? 65536 then [224 + c / 4096; 128 + (c / 64) mod 64; 128 + c mod 64]
  else [240 + c / 262144; 128 + (c / 4096) mod 64; 128 + (c / 64) mod 64; 128 + c mod 64].

(** str::as_bytes. *)
Definition utf8 (s : str) : bytes := flat_map utf8_char s.

Definition contb (b : Z) : bool := (128 <=? b) && (b <? 192).

(** One scalar value from the front of a byte string: shortest forms only, no
    surrogates, at most U+10FFFF (core::str::validations). *)
Definition utf8_next (l : bytes) : option (char * bytes) :=
  match l with
  | a :: r =>
      if a <? 128 then (if 0 <=? a then Some (a, r) else None)
      else if (194 <=? a) && (a <? 224) then
        match r with
        | b :: r => if contb b then Some ((a - 192) * 64 + (b - 128), r) else None
        | _ => None
        end
      else if (224 <=? a) && (a <? 240) then
        match r with
        | b :: c :: r =>
            let v := (a - 224) * 4096 + (b - 128) * 64 + (c - 128) in
            if contb b && contb c && (2048 <=? v) && negb ((55296 <=? v) && (v <=? 57343))
            then Some (v, r) else None
        | _ => None
        end
      else if (240 <=? a) && (a <? 245) then
        match r with
        | b :: c :: d :: r =>
            let v := (a - 240) * 262144 + (b - 128) * 4096 + (c - 128) * 64 + (d - 128) in
            if contb b && contb c && contb d && (65536 <=? v) && (v <=? 1114111)
            then Some (v, r) else None
        | _ => None
        end
      else None
  | [] => None
  end.

(** std::str::from_utf8; the fuel is the number of bytes. *)
Fixpoint utf8_decode_fuel (fuel : nat) (l : bytes) : option str :=
  match l with
  | [] => Some []
  | _ => match fuel with
         | O => None
         | S f => match utf8_next l with
                  | Some (c, r) => match utf8_decode_fuel f r with
                                   | Some s => Some (c :: s)
                                   | None => None
                                   end
                  | None => None
                  end
         end
  end.
Definition utf8_decode (l : bytes) : option str := utf8_decode_fuel (length l) l.

(** The characters before the first place that is not UTF-8 (or the end). *)
Fixpoint utf8_upto_fuel (fuel : nat) (l : bytes) : str :=
  match fuel with
  | O => []
  | S f => match utf8_next l with
           | Some (c, r) => c :: utf8_upto_fuel f r
           | None => []
           end
  end.
Definition utf8_upto (l : bytes) : str := utf8_upto_fuel (length l) l.

(** ** Facts *)

Lemma utf8_app a b : utf8 (a ++ b) = utf8 a ++ utf8 b.
Proof. apply flat_map_app. Qed.

Lemma utf8_char_len c : (1 <= length (utf8_char c))%nat.
Proof. unfold utf8_char. repeat destruct (_ <? _); cbn; lia. Qed.

Lemma utf8_char_byte c : scalar c -> Forall byte (utf8_char c).
Proof.
  unfold scalar, utf8_char, byte. intros H.
  destruct (c <? 128) eqn:E1; [repeat constructor; lia|].
  destruct (c <? 2048) eqn:E2; [repeat constructor; Z.div_mod_to_equations; lia|].
  destruct (c <? 65536) eqn:E3; repeat constructor; Z.div_mod_to_equations; lia.
Qed.

Lemma utf8_byte s : valid_str s -> Forall byte (utf8 s).
Proof.
  induction 1 as [|c s Hc _ IH]; [constructor|]. cbn. apply Forall_app. split; [now apply utf8_char_byte|exact IH].
Qed.

Lemma utf8_next_char c r : scalar c -> utf8_next (utf8_char c ++ r) = Some (c, r).
Proof.
  unfold scalar, utf8_char. intros H.
  destruct (c <? 128) eqn:E1.
  { cbn [app utf8_next]. rewrite E1. destruct (0 <=? c) eqn:?; [easy|lia]. }
  destruct (c <? 2048) eqn:E2.
  { cbn [app utf8_next].
    destruct (192 + c / 64 <? 128) eqn:Q1; [Z.div_mod_to_equations; lia|].
    destruct ((194 <=? 192 + c / 64) && (192 + c / 64 <? 224)) eqn:Q2; [|Z.div_mod_to_equations; lia].
    unfold contb. destruct ((128 <=? 128 + c mod 64) && (128 + c mod 64 <? 192)) eqn:Q3; [|Z.div_mod_to_equations; lia].
    f_equal. f_equal. Z.div_mod_to_equations; lia. }
  destruct (c <? 65536) eqn:E3.
  { cbn [app utf8_next].
    destruct (224 + c / 4096 <? 128) eqn:Q1; [Z.div_mod_to_equations; lia|].
    destruct ((194 <=? 224 + c / 4096) && (224 + c / 4096 <? 224)) eqn:Q2; [Z.div_mod_to_equations; lia|].
    destruct ((224 <=? 224 + c / 4096) && (224 + c / 4096 <? 240)) eqn:Q3; [|Z.div_mod_to_equations; lia].
    assert ((224 + c / 4096 - 224) * 4096 + (128 + (c / 64) mod 64 - 128) * 64 + (128 + c mod 64 - 128) = c) as ->
      by (Z.div_mod_to_equations; lia).
    assert (contb (128 + (c / 64) mod 64) = true) as -> by (unfold contb; Z.div_mod_to_equations; lia).
    assert (contb (128 + c mod 64) = true) as -> by (unfold contb; Z.div_mod_to_equations; lia).
    destruct (true && true && (2048 <=? c) && negb ((55296 <=? c) && (c <=? 57343))) eqn:Q; [easy|lia]. }
  cbn [app utf8_next].
  destruct (240 + c / 262144 <? 128) eqn:Q1; [Z.div_mod_to_equations; lia|].
  destruct ((194 <=? 240 + c / 262144) && (240 + c / 262144 <? 224)) eqn:Q2; [Z.div_mod_to_equations; lia|].
  destruct ((224 <=? 240 + c / 262144) && (240 + c / 262144 <? 240)) eqn:Q3; [Z.div_mod_to_equations; lia|].
  destruct ((240 <=? 240 + c / 262144) && (240 + c / 262144 <? 245)) eqn:Q4; [|Z.div_mod_to_equations; lia].
  assert ((240 + c / 262144 - 240) * 262144 + (128 + (c / 4096) mod 64 - 128) * 4096 +
          (128 + (c / 64) mod 64 - 128) * 64 + (128 + c mod 64 - 128) = c) as ->
    by (Z.div_mod_to_equations; lia).
  assert (contb (128 + (c / 4096) mod 64) = true) as -> by (unfold contb; Z.div_mod_to_equations; lia).
  assert (contb (128 + (c / 64) mod 64) = true) as -> by (unfold contb; Z.div_mod_to_equations; lia).
  assert (contb (128 + c mod 64) = true) as -> by (unfold contb; Z.div_mod_to_equations; lia).
  destruct (true && true && true && (65536 <=? c) && (c <=? 1114111)) eqn:Q; [easy|lia].
Qed.

Lemma utf8_decode_fuel_ok s : valid_str s -> forall fuel, (length (utf8 s) <= fuel)%nat ->
  utf8_decode_fuel fuel (utf8 s) = Some s.
Proof.
  induction 1 as [|c s Hc Hs IH]; intros fuel Hf.
  - now destruct fuel.
  - cbn [utf8 flat_map] in *. rewrite app_length in Hf. pose proof (utf8_char_len c).
    destruct fuel as [|f]; [lia|]. cbn [utf8_decode_fuel].
    pose proof (utf8_next_char c (flat_map utf8_char s) Hc) as E.
    destruct (utf8_char c ++ flat_map utf8_char s) as [|x l] eqn:El.
    { apply app_eq_nil in El. destruct El as (El & _). rewrite El in H. cbn in H. lia. }
    rewrite E. fold (utf8 s). rewrite IH; [easy|]. unfold utf8. lia.
Qed.

Lemma utf8_decode_encode s : valid_str s -> utf8_decode (utf8 s) = Some s.
Proof. intros H. apply utf8_decode_fuel_ok; [exact H|lia]. Qed.

Lemma utf8_inj a b : valid_str a -> valid_str b -> utf8 a = utf8 b -> a = b.
Proof.
  intros Ha Hb E. apply utf8_decode_encode in Ha, Hb. congruence.
Qed.

(** What is decoded is valid and encodes back to the same bytes. *)
Lemma utf8_next_inv l c r : utf8_next l = Some (c, r) -> scalar c /\ l = utf8_char c ++ r.
Proof.
  unfold utf8_next, scalar, utf8_char, contb. destruct l as [|a l]; [easy|].
  destruct (a <? 128) eqn:E1.
  { destruct (0 <=? a) eqn:E0; [|easy]. intros [= <- <-]. rewrite E1. split; [lia|easy]. }
  destruct ((194 <=? a) && (a <? 224)) eqn:E2.
  { destruct l as [|b l]; [easy|]. destruct ((128 <=? b) && (b <? 192)) eqn:Eb; [|easy]. intros [= <- <-].
    set (v := (a - 192) * 64 + (b - 128)). assert (Hv : v = (a - 192) * 64 + (b - 128)) by reflexivity. clearbody v.
    destruct (v <? 128) eqn:Q1; [lia|]. destruct (v <? 2048) eqn:Q2; [|lia].
    split; [lia|]. cbn [app]. repeat f_equal; Z.div_mod_to_equations; lia. }
  destruct ((224 <=? a) && (a <? 240)) eqn:E3.
  { destruct l as [|b [|d l]]; try easy.
    destruct ((128 <=? b) && (b <? 192) && ((128 <=? d) && (d <? 192)) &&
       (2048 <=? (a - 224) * 4096 + (b - 128) * 64 + (d - 128)) &&
       negb ((55296 <=? (a - 224) * 4096 + (b - 128) * 64 + (d - 128)) &&
             ((a - 224) * 4096 + (b - 128) * 64 + (d - 128) <=? 57343))) eqn:Eb; [|easy]. intros [= <- <-].
    set (v := (a - 224) * 4096 + (b - 128) * 64 + (d - 128)) in *.
    assert (Hv : v = (a - 224) * 4096 + (b - 128) * 64 + (d - 128)) by reflexivity. clearbody v.
    destruct (v <? 128) eqn:Q1; [lia|]. destruct (v <? 2048) eqn:Q2; [lia|]. destruct (v <? 65536) eqn:Q3; [|lia].
    split; [lia|]. cbn [app]. repeat f_equal; Z.div_mod_to_equations; lia. }
  destruct ((240 <=? a) && (a <? 245)) eqn:E4; [|easy].
  destruct l as [|b [|d [|e l]]]; try easy.
  destruct ((128 <=? b) && (b <? 192) && ((128 <=? d) && (d <? 192)) && ((128 <=? e) && (e <? 192)) &&
     (65536 <=? (a - 240) * 262144 + (b - 128) * 4096 + (d - 128) * 64 + (e - 128)) &&
     ((a - 240) * 262144 + (b - 128) * 4096 + (d - 128) * 64 + (e - 128) <=? 1114111)) eqn:Eb; [|easy].
  intros [= <- <-].
  set (v := (a - 240) * 262144 + (b - 128) * 4096 + (d - 128) * 64 + (e - 128)) in *.
  assert (Hv : v = (a - 240) * 262144 + (b - 128) * 4096 + (d - 128) * 64 + (e - 128)) by reflexivity. clearbody v.
  destruct (v <? 128) eqn:Q1; [lia|]. destruct (v <? 2048) eqn:Q2; [lia|]. destruct (v <? 65536) eqn:Q3; [lia|].
  split; [lia|]. cbn [app]. repeat f_equal; Z.div_mod_to_equations; lia.
Qed.

Lemma utf8_decode_fuel_inv fuel l s : utf8_decode_fuel fuel l = Some s -> valid_str s /\ l = utf8 s.
Proof.
  revert l s; induction fuel as [|f IH]; intros l s; destruct l as [|a l]; cbn [utf8_decode_fuel]; try easy.
  - intros [= <-]. split; [constructor|easy].
  - intros [= <-]. split; [constructor|easy].
  - destruct (utf8_next (a :: l)) as [[c r]|] eqn:E; [|easy].
    destruct (utf8_decode_fuel f r) as [t|] eqn:Er; [|easy]. intros [= <-].
    apply utf8_next_inv in E. destruct E as (Hc & ->). apply IH in Er. destruct Er as (Ht & ->).
    split; [now constructor|reflexivity].
Qed.

Lemma utf8_decode_inv l s : utf8_decode l = Some s -> valid_str s /\ l = utf8 s.
Proof. apply utf8_decode_fuel_inv. Qed.
