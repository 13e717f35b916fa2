(** Readers of compressed files: bzip2::read::MultiBzDecoder between the file and
    the XML parser.  The bzip2 crate is not part of the repository. *)
From Coq Require Import String ZArith List Bool Lia.
From Verif Require Import Base Utf8 XmlToken Changesets QuickXml.
Import ListNotations.
Open Scope Z_scope.

(** What a decoder delivers for the bytes of a file: bytes, and then the end
    ([true]) or an I/O error ([false]). *)
Definition decoder := bytes -> bytes * bool.

(** The trusted behaviour of MultiBzDecoder, for [stream z d] the format of a
    single compressed stream: streams one after the other are decoded one after
    the other; a file that ends inside a stream gives all data of the streams
    before it and some data of that stream, and then an error of kind
    UnexpectedEof.  So does a file without any bytes. *)
Definition decodes (stream : bytes -> bytes -> Prop) (dec : decoder) : Prop :=
  (forall zs ds, Forall2 stream zs ds -> zs <> [] -> dec (concat zs) = (concat ds, true))
  /\ (forall zs ds z1 z2 d, Forall2 stream zs ds -> stream (z1 ++ z2) d -> z2 <> [] -> (zs = [] \/ z1 <> []) ->
        exists d1 d2, d = d1 ++ d2 /\ dec (concat zs ++ z1) = (concat ds ++ d1, false)).

Section Readers.
Variable dec : decoder.

(** ChangesetReader::from_filename and from_bz2_reader, ChangesetTagReader::from_filename:
    src/changesets.rs:294-309, 322-330.  What quick-xml makes of the file. *)
Definition bz2_q_items (file : bytes) : list qitem :=
  let '(b, ok) := dec file in if ok then q_items b else q_items_io b.

(** xml::from_filename_bz2 and read_xml: src/xml/mod.rs:26-33, src/lib.rs:767-771.
    What xml-rs makes of the file. *)
Definition bz2_xml_items (attr_ws : char -> char) (file : bytes) : list item :=
  let '(b, ok) := dec file in if ok then xml_items attr_ws b else cut_items attr_ws b.

End Readers.
