(** C08-C12: timestamps. *)
From Coq Require Import String ZArith List Bool Lia.
From Coq Require Import ZifyBool.
From Verif Require Import Base SpecNum SpecCal Timestamp CalendarFacts TimestampFacts.
Import ListNotations.
Open Scope Z_scope.

(** ** C08 *)

Theorem C08_epoch_roundtrip : forall t, 0 <= t < 2^31 ->
  CanonicalISO (to_iso_string (EpochNumber t)) t /\
  to_epoch_number (ISOString (to_iso_string (EpochNumber t))) = t /\
  timestamp_from_str (to_iso_string (EpochNumber t)) = Some (EpochNumber t).
Proof.
  intros t H. assert (Hi : in_i32 t) by (unfold in_i32; lia).
  cbn [to_iso_string to_epoch_number]. rewrite as_i32_id by easy.
  pose proof (epoch_to_iso_canonical t Hi) as HC. split; [exact HC|].
  pose proof (parse_canonical _ _ HC) as HP.
  unfold iso_to_epoch, timestamp_from_str. rewrite HP. split; [|reflexivity].
  apply as_u32_id. unfold in_u32. lia.
Qed.
Print Assumptions C08_epoch_roundtrip.

Example C08_ex : to_iso_string (EpochNumber 951782400) = lit "2000-02-29T00:00:00Z"
  /\ to_iso_string (EpochNumber 2147483647) = lit "2038-01-19T03:14:07Z"
  /\ to_epoch_number (ISOString (lit "2000-02-29T00:00:00Z")) = 951782400.
Proof. repeat split; vm_compute; reflexivity. Qed.

(** ** C09 *)

(** Every day number has exactly one calendar date. *)
Theorem C09_calendar_unique : forall n, exists x, DayNumber n x /\ forall y, DayNumber n y -> y = x.
Proof.
  intros n. exists (civil_of_days n). split; [apply DayNumber_civil|].
  intros y Hy. apply DayNumber_iff in Hy as (V & E). destruct (civil_of_days_ok n) as (V' & E').
  apply days_of_civil_inj; congruence.
Qed.
Print Assumptions C09_calendar_unique.

(** Formatting shows the date and time of day obtained by counting days. *)
Theorem C09_format_correct : forall t, in_i32 t -> CanonicalISO (epoch_to_iso t) t.
Proof. exact epoch_to_iso_canonical. Qed.
Print Assumptions C09_format_correct.

(** Parsing accepts exactly the RFC 3339 texts and gives their instant. *)
Theorem C09_parse_correct : forall s ts,
  timestamp_from_str s = Some ts <-> exists t, ts = EpochNumber t /\ RFC3339 s t.
Proof.
  intros s ts. unfold timestamp_from_str. split.
  - destruct (parse_rfc3339 s) as [t|] eqn:E; [|easy]. cbn. intros [= <-].
    exists t. split; [easy|]. now apply parse_rfc3339_spec.
  - intros (t & -> & H). apply parse_rfc3339_spec in H. now rewrite H.
Qed.
Print Assumptions C09_parse_correct.

(** ... and to_epoch_number gives the same instant when it is a u32. *)
Theorem C09_to_epoch_correct : forall s t, RFC3339 s t -> in_u32 t ->
  to_epoch_number (ISOString s) = t.
Proof.
  intros s t H Hu. cbn. unfold iso_to_epoch. apply parse_rfc3339_spec in H. rewrite H.
  now apply as_u32_id.
Qed.
Print Assumptions C09_to_epoch_correct.

Example C09_ex_date : DayNumber 59 (Date 1970 3 1) /\ civil_of_days (-1) = Date 1969 12 31.
Proof. split; [|reflexivity]. apply (DayNumber_civil 59). Qed.
Example C09_ex_parse :
  timestamp_from_str (lit "2019-12-31T23:30:00.5-01:30") = Some (EpochNumber 1577840400)
  /\ timestamp_from_str (lit "2019-02-29T00:00:00Z") = None
  /\ timestamp_from_str (lit "2016-12-31 23:59:60z") = Some (EpochNumber 1483228799).
Proof. repeat split; vm_compute; reflexivity. Qed.
Example C09_ex_rfc : RFC3339 (lit "2019-12-31T23:30:00.5-01:30") 1577840400.
Proof. apply parse_rfc3339_spec. vm_compute. reflexivity. Qed.

(** ** C10: false of the code *)

(** 2038-01-19T03:14:08Z is shown as an instant in 1901. *)
Theorem C10_to_iso_refuted : exists t t', in_i64 t /\
  CanonicalISO (to_iso_string (EpochNumber t)) t' /\ t' <> t.
Proof.
  exists (2^31), (-2^31). split; [unfold in_i64; lia|]. split; [|lia].
  change (to_iso_string (EpochNumber (2 ^ 31))) with (epoch_to_iso (-2^31)).
  apply epoch_to_iso_canonical. unfold in_i32. lia.
Qed.
Print Assumptions C10_to_iso_refuted.

(** An instant before 1970 becomes one after 2100. *)
Theorem C10_to_epoch_refuted : exists s t, CanonicalISO s t /\
  to_epoch_number (ISOString s) <> t.
Proof.
  exists (epoch_to_iso (-1)), (-1). split.
  - apply epoch_to_iso_canonical. unfold in_i32. lia.
  - vm_compute. discriminate.
Qed.
Print Assumptions C10_to_epoch_refuted.

(** What holds: the i32 range for printing, the u32 range for parsing.  Missing
    from C10: every other instant. *)
Theorem C10_faithful_partial :
  (forall t, in_i32 t -> CanonicalISO (to_iso_string (EpochNumber t)) t) /\
  (forall s t, RFC3339 s t -> in_u32 t -> to_epoch_number (ISOString s) = t).
Proof.
  split; [|exact C09_to_epoch_correct].
  intros t H. cbn [to_iso_string]. rewrite as_i32_id by easy. now apply epoch_to_iso_canonical.
Qed.
Print Assumptions C10_faithful_partial.

(** Outside the i32 range the text shown is always that of another instant. *)
Theorem C10_outside_always_wrong : forall t, ~ in_i32 t ->
  ~ CanonicalISO (to_iso_string (EpochNumber t)) t.
Proof.
  intros t H HC. apply H. cbn [to_iso_string] in HC.
  pose proof (epoch_to_iso_canonical (as_i32 t) (as_i32_range t)) as HC'.
  pose proof (parse_canonical _ _ HC) as P1. pose proof (parse_canonical _ _ HC') as P2.
  rewrite P1 in P2. injection P2 as ->. apply as_i32_range.
Qed.
Print Assumptions C10_outside_always_wrong.

(** ** C11 *)

(** A timestamp value that denotes an instant between 1970 and 2106, in either
    representation. *)
Definition Denotes (ts : timestamp) (t : Z) : Prop :=
  0 <= t < 2^32 /\
  (ts = EpochNumber t \/ exists s, ts = ISOString s /\ CanonicalISO s t).

Lemma Denotes_epoch ts t : Denotes ts t -> to_epoch_number ts = t.
Proof.
  intros (B & [-> |(s & -> & H)]); [easy|]. apply C09_to_epoch_correct; [now apply canonical_rfc|easy].
Qed.

Theorem C11_order_chronological : forall a b ta tb, Denotes a ta -> Denotes b tb ->
  timestamp_cmp a b = (ta ?= tb).
Proof.
  intros a b ta tb Ha Hb.
  pose proof (Denotes_epoch _ _ Ha) as Ea. pose proof (Denotes_epoch _ _ Hb) as Eb.
  destruct Ha as (Ba & [-> |(s & -> & Ha)]), Hb as (Bb & [-> |(s' & -> & Hb)]);
    cbn [timestamp_cmp]; rewrite ?Ea, ?Eb; try easy.
  now apply canonical_cmp.
Qed.
Print Assumptions C11_order_chronological.

Theorem C11_equality_chronological : forall a b ta tb, Denotes a ta -> Denotes b tb ->
  timestamp_eqb a b = true <-> ta = tb.
Proof.
  intros a b ta tb Ha Hb.
  pose proof (C11_order_chronological a b ta tb Ha Hb) as HC.
  pose proof (Denotes_epoch _ _ Ha) as Ea. pose proof (Denotes_epoch _ _ Hb) as Eb.
  destruct Ha as (Ba & [-> |(s & -> & Ha)]), Hb as (Bb & [-> |(s' & -> & Hb)]);
    cbn [timestamp_eqb timestamp_cmp] in *; rewrite ?Ea, ?Eb; try apply Z.eqb_eq.
  rewrite str_eqb_eq, <- str_cmp_eq_iff, HC. apply Z.compare_eq_iff.
Qed.
Print Assumptions C11_equality_chronological.

(** On all timestamps, comparison and equality agree. *)
Theorem C11_cmp_eq_agree : forall a b, timestamp_cmp a b = Eq <-> timestamp_eqb a b = true.
Proof.
  intros [s|t] [s'|t']; cbn [timestamp_cmp timestamp_eqb].
  - rewrite str_cmp_eq_iff. symmetry. apply str_eqb_eq.
  - rewrite Z.compare_eq_iff. symmetry. apply Z.eqb_eq.
  - rewrite Z.compare_eq_iff. symmetry. apply Z.eqb_eq.
  - rewrite Z.compare_eq_iff. symmetry. apply Z.eqb_eq.
Qed.
Print Assumptions C11_cmp_eq_agree.

Example C11_ex : Denotes (ISOString (lit "2009-12-31T23:59:59Z")) 1262303999
  /\ Denotes (EpochNumber 1262304000) 1262304000
  /\ timestamp_cmp (ISOString (lit "2009-12-31T23:59:59Z")) (EpochNumber 1262304000) = Lt.
Proof.
  split; [|split].
  - split; [lia|]. right. eexists. split; [reflexivity|].
    change (lit "2009-12-31T23:59:59Z") with (epoch_to_iso 1262303999).
    apply epoch_to_iso_canonical. unfold in_i32. lia.
  - split; [lia|]. now left.
  - vm_compute. reflexivity.
Qed.

(** ** C12: false of the code *)

Theorem C12_transitive_refuted : exists a b c,
  timestamp_eqb a b = true /\ timestamp_eqb b c = true /\ timestamp_eqb a c = false.
Proof.
  exists (ISOString (lit "1970-01-01T00:00:00Z")), (EpochNumber 0), (ISOString (lit "yesterday")).
  repeat split; vm_compute; reflexivity.
Qed.
Print Assumptions C12_transitive_refuted.

(** Even for valid texts only: two spellings of one instant. *)
Theorem C12_transitive_valid_refuted : exists a b c ta, RFC3339 a ta /\ RFC3339 c ta /\
  timestamp_eqb (ISOString a) b = true /\ timestamp_eqb b (ISOString c) = true /\
  timestamp_eqb (ISOString a) (ISOString c) = false.
Proof.
  exists (lit "2000-01-01T00:00:00Z"), (EpochNumber 946684800), (lit "2000-01-01T01:00:00+01:00"), 946684800.
  split; [apply parse_rfc3339_spec; vm_compute; reflexivity|].
  split; [apply parse_rfc3339_spec; vm_compute; reflexivity|].
  repeat split; vm_compute; reflexivity.
Qed.
Print Assumptions C12_transitive_valid_refuted.

(** What holds: reflexivity and symmetry always; transitivity for canonical
    timestamps.  Missing: transitivity through other ISO texts. *)
Theorem C12_equivalence_partial :
  (forall a, timestamp_eqb a a = true) /\
  (forall a b, timestamp_eqb a b = timestamp_eqb b a) /\
  (forall a b c ta tb tc, Denotes a ta -> Denotes b tb -> Denotes c tc ->
     timestamp_eqb a b = true -> timestamp_eqb b c = true -> timestamp_eqb a c = true).
Proof.
  split; [|split].
  - intros [s|t]; cbn; [apply str_eqb_refl|apply Z.eqb_refl].
  - intros [s|t] [s'|t']; cbn; [apply str_eqb_sym| | |]; apply Z.eqb_sym.
  - intros a b c ta tb tc Ha Hb Hc.
    rewrite (C11_equality_chronological a b ta tb), (C11_equality_chronological b c tb tc),
      (C11_equality_chronological a c ta tc) by easy. congruence.
Qed.
Print Assumptions C12_equivalence_partial.
