(** What is asked of the place an XML or OSC writer writes to (C78, C79). *)
From Coq Require Import ZArith List.
From Verif Require Import Base Obj XmlWrite SpecXml SpecWriter.
Import ListNotations.

(** The contract of std's Write::write_all for a sink with states [S], of which [got]
    are the bytes received so far: when it returns Ok (true), all of the bytes were
    added; when it returns an error, the bytes up to some place before the end were. *)
Definition contract {S} (got : S -> bytes) (wa : bytes -> S -> S * bool) : Prop :=
  forall b s s' ok, wa b s = (s', ok) ->
  if ok then got s' = got s ++ b
  else exists p q, b = p ++ q /\ q <> [] /\ got s' = got s ++ p.

(** One call of std's Write::write: it takes up to so many bytes (0: the WriteZero
    error of write_all), is interrupted, or fails. *)
Inductive answer := Takes (n : nat) | Interrupted | Fails.
(** A sink: the bytes received, and the answers still to come; after those it takes
    everything. *)
Record plan_sink := PlanSink { ps_got : bytes; ps_plan : list answer }.

(** std's default Write::write_all on such a sink: a loop over write. *)
Fixpoint write_loop (plan : list answer) (got b : bytes) : plan_sink * bool :=
  match b with
  | [] => (PlanSink got plan, true)
  | _ :: _ =>
      match plan with
      | [] => (PlanSink (got ++ b) [], true)
      | Takes O :: r => (PlanSink got r, false)
      | Takes n :: r => write_loop r (got ++ firstn n b) (skipn n b)
      | Interrupted :: r => write_loop r got b
      | Fails :: r => (PlanSink got r, false)
      end
  end.
Definition plan_write_all (b : bytes) (s : plan_sink) : plan_sink * bool :=
  write_loop (ps_plan s) (ps_got s) b.

(** The texts a call may stand for: on a fresh writer the opening comes first.
    [opening] says which texts open a document, [closing] closes it. *)
Definition call_text (opening : str -> Prop) (closing : str) (c : call) (t : str) : Prop :=
  let part := match c with
              | CSetHeader _ _ => []
              | CWrite o => write_text o
              | CClose => closing
              end in
  t = part \/ exists u, opening u /\ t = u ++ part.
