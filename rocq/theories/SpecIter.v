(** What repeated calls of an iterator's [next] return: specification side. *)
From Coq Require Import List.
From Verif Require Import Base.
Import ListNotations.

(** [Runs next s l r]: starting in state [s], [next] returns the elements of [l]
    one after the other and then either reports the end, leaving the iterator in
    state [s'] ([r = Ret s']), or panics ([r = Panic]). *)
Inductive Runs {St A : Type} (next : St -> outcome (option A * St)) : St -> list A -> outcome St -> Prop :=
| Runs_end s s' : next s = Ret (None, s') -> Runs next s [] (Ret s')
| Runs_panic s : next s = Panic -> Runs next s [] Panic
| Runs_step s a s1 l r : next s = Ret (Some a, s1) -> Runs next s1 l r -> Runs next s (a :: l) r.

(** Runs are determined by the start state. *)
Lemma Runs_det {St A} (next : St -> outcome (option A * St)) s l r : Runs next s l r ->
  forall l' r', Runs next s l' r' -> l = l' /\ r = r'.
Proof.
  induction 1 as [s s' H|s H|s a s1 l r H _ IH]; intros l' r' H'; inversion H'; subst;
    rewrite H in *; try discriminate.
  - match goal with E : Ret _ = Ret _ |- _ => injection E as -> end. easy.
  - easy.
  - match goal with E : Ret _ = Ret _ |- _ => injection E as -> -> end.
    match goal with E : Runs _ _ _ _ |- _ => apply IH in E as [-> ->] end. easy.
Qed.

(** [Takes next s l s']: the first calls return the elements of [l] and leave the
    iterator in state [s']. *)
Inductive Takes {St A : Type} (next : St -> outcome (option A * St)) : St -> list A -> St -> Prop :=
| Takes_none s : Takes next s [] s
| Takes_one s a s1 l s2 : next s = Ret (Some a, s1) -> Takes next s1 l s2 -> Takes next s (a :: l) s2.
