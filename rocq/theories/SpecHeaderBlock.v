(** The header block of a PBF file (HeaderBlock and HeaderBBox of osmformat.proto):
    specification side, in the terms of SpecWire.v. *)
From Coq Require Import ZArith List Bool.
From Verif Require Import Base Utf8 PbWire PbSize SpecWire.
Import ListNotations.
Open Scope Z_scope.

(** A text field. *)
Definition text_v (s : str) (b : bytes) : Prop := valid_str s /\ b = utf8 s.
(** Repeated bytes or strings. *)
Definition repeated_field {A} (n : Z) (val : A -> bytes -> Prop) (l : list A) (fs : list field) : Prop :=
  exists bss, typed n [2] fs = map (fun b => (8 * n + 2, WLen b)) bss /\ Forall2 val l bss.

Definition bbox_enc (m : header_bbox) (fs : list field) : Prop :=
  scalar 1 sint64_v (hb_left m) fs /\ scalar 2 sint64_v (hb_right m) fs /\
  scalar 3 sint64_v (hb_top m) fs /\ scalar 4 sint64_v (hb_bottom m) fs.
Definition header_block_enc (m : header_block) (fs : list field) : Prop :=
  submessage 1 bbox_enc (hk_bbox m) fs /\
  repeated_field 4 text_v (hk_required m) fs /\ repeated_field 5 text_v (hk_optional m) fs /\
  blob_field 16 text_v (hk_program m) fs /\ blob_field 17 text_v (hk_source m) fs /\
  scalar 32 int64_v (hk_rep_time m) fs /\ scalar 33 int64_v (hk_rep_seq m) fs /\
  blob_field 34 text_v (hk_rep_url m) fs.

(** The four sides of a bounding box are required; the box itself is not. *)
Definition header_block_complete (m : header_block) : Prop :=
  forall b, hk_bbox m = Some b ->
    present (hb_left b) /\ present (hb_right b) /\ present (hb_top b) /\ present (hb_bottom b).
