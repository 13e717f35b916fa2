(** The end of a writer's life: Drop, into_inner and a panic in from_iter. *)
From Coq Require Import List.
From Verif Require Import Base Obj XmlWrite.
Import ListNotations.

(** How a function ends that drops a writer: it returns, it unwinds with a panic, or
    a second panic during unwinding aborts the process (Rust's rule for a panic in a
    drop that unwinding runs; the crate does not set [panic = "abort"]). *)
Inductive ending := Quiet | Unwinds | Aborts.

Section End.

(** xml_call or osc_call. *)
Variable f : writer -> call -> writer * wres unit.

(** Drop, src/xml/mod.rs:527-531, src/osc/mod.rs:241-245: close().unwrap().  First at
    the end of a scope, then while a panic unwinds. *)
Definition drop_writer (w : writer) : sink * ending :=
  match f w CClose with
  | (w1, WOk _) => (w_sink w1, Quiet)
  | (w1, _) => (w_sink w1, Unwinds)
  end.
Definition unwind_writer (w : writer) : sink * ending :=
  match f w CClose with
  | (w1, WOk _) => (w_sink w1, Unwinds)
  | (w1, _) => (w_sink w1, Aborts)
  end.

(** into_inner, src/xml/mod.rs:521-524, src/osc/mod.rs:235-238: todo!(), with the
    writer in hand. *)
Definition writer_into_inner (w : writer) : sink * ending := unwind_writer w.

(** OSMWriter::from_iter, src/lib.rs:735-751: the writer, or what became of the sink
    when one of the unwraps panicked. *)
Definition from_iter_end (cap : option nat) (os : list sobj) : writer + sink * ending :=
  match from_iter f cap os with
  | (w, WOk _) => inl w
  | (w, _) => inr (unwind_writer w)
  end.

End End.
