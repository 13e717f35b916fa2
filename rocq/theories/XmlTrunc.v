(** Prefixes of documents. *)
From Coq Require Import String ZArith List Bool Lia.
From Coq Require Import ZifyBool ZifyNat.
From Verif Require Import Base Obj Utf8 SpecXml XmlToken XmlRead SpecXmlRead SpecIter XmlRound XmlReadBack.
Import ListNotations.
Open Scope Z_scope.

Section Trunc.
Variable attr_ws : char -> char.
Notation run := (trun attr_ws).

(** Events are only added. *)
Lemma step_evs p c : exists l, p_evs (tstep attr_ws p c) = p_evs p ++ l.
Proof.
  destruct p as [m st r ev]. unfold tstep. cbv zeta. cbn [p_mode p_stack p_rooted p_evs].
  unfold goto, open_element, empty_element, close_element. cbn [p_mode p_stack p_rooted p_evs].
  destruct m;
    repeat match goal with
    | |- exists l, p_evs (if ?b then _ else _) = _ => destruct b
    | |- exists l, p_evs (match ?x with _ => _ end) = _ => destruct x
    end; cbn [p_evs];
    first [exists []; rewrite app_nil_r; reflexivity | eexists; reflexivity].
Qed.

Lemma run_evs s : forall p, exists l, p_evs (run p s) = p_evs p ++ l.
Proof.
  induction s as [|c s IH]; intros p; [exists []; cbn; now rewrite app_nil_r|].
  destruct (step_evs p c) as (l1 & E1). destruct (IH (tstep attr_ws p c)) as (l2 & E2).
  exists (l1 ++ l2). cbn [trun fold_left]. change (fold_left (tstep attr_ws) s) with (fun p => run p s).
  cbv beta. rewrite E2, E1. now rewrite app_assoc.
Qed.

(** After the root element has been closed nothing can be opened any more. *)
Definition after_root (p : pst) : Prop :=
  p_mode p = MErr \/ (p_stack p = [] /\ p_rooted p = true
    /\ match p_mode p with
       | MText _ | MLt | MBang _ | MComment _ | MPI _ | MCloseStart | MCloseName _ | MCloseWs _ => True
       | _ => False
       end).

Lemma after_root_step p c : after_root p -> after_root (tstep attr_ws p c).
Proof.
  destruct p as [m st r ev]. intros [H|(H1 & H2 & H3)]; cbn [p_mode p_stack p_rooted] in *.
  - subst m. left. unfold tstep. cbn [p_mode]. destruct (negb (xml_char c)); reflexivity.
  - subst st r. unfold tstep. cbn [p_mode p_stack p_rooted].
    destruct (negb (xml_char c)); [now left|].
    destruct m; try easy;
      repeat match goal with
      | |- context [if ?b then _ else _] => destruct b
      end; unfold goto, close_element; cbn [p_stack p_rooted]; try (now left); right; cbn; easy.
Qed.

Lemma after_root_run s : forall p, after_root p -> after_root (run p s).
Proof. induction s as [|c s IH]; intros p H; [easy|]. apply IH. now apply after_root_step. Qed.

(** If the run over the whole text except its last character is inside the root
    element, no shorter prefix is a complete document. *)
Lemma prefix_incomplete s s1 s2 : s = s1 ++ s2 ->
  p_mode (run tstart s) <> MErr -> p_stack (run tstart s) <> [] ->
  titems (run tstart s1) = map IEv (p_evs (run tstart s1)) ++ [IErr].
Proof.
  intros -> Hm Hs. rewrite run_app in Hm, Hs.
  unfold titems. destruct (p_mode (run tstart s1)) eqn:E1; try easy.
  destruct (p_stack (run tstart s1)) eqn:E2; try easy.
  destruct (p_rooted (run tstart s1)) eqn:E3; try easy. exfalso.
  assert (A : after_root (run tstart s1)) by (right; rewrite E1, E2, E3; easy).
  apply (after_root_run s2) in A. destruct A as [A|(A & _)]; auto.
Qed.

Lemma pull_prefix l1 l2 : forall push acc,
  match xml_pull push acc (map IEv (l1 ++ l2)) with
  | Ret (els, rest) =>
      (exists r1, l1 ++ l2 = (firstn (length l1 - length r1) l1) ++ r1 ++ l2
         /\ rest = map IEv (r1 ++ l2) /\ (length r1 < length l1)%nat
         /\ xml_pull push acc (map IEv l1 ++ [IErr]) = Ret (els, map IEv r1 ++ [IErr]))
      \/ xml_pull push acc (map IEv l1 ++ [IErr]) = Panic
  | Panic => False
  end.
Proof.
  induction l1 as [|e l1 IH]; intros push acc; cbn [map app].
  - assert (H : forall l push acc, xml_pull push acc (map IEv l) <> Panic).
    { induction l as [|e l IHl]; intros; cbn; [discriminate|].
      destruct (match e with EEnd n => obj_name n | _ => false end); [discriminate|apply IHl]. }
    specialize (H l2 push acc). destruct (xml_pull push acc (map IEv l2)) as [[els rest]|]; [|easy].
    right. reflexivity.
  - cbn [xml_pull]. 
    set (push' := match e with EStart n _ => obj_name n || push | _ => push end).
    set (acc' := if push' then acc ++ [e] else acc).
    destruct (match e with EEnd n => obj_name n | _ => false end).
    + left. exists l1. cbn [length]. replace (S (length l1) - length l1)%nat with 1%nat by lia.
      repeat split; try lia.
    + specialize (IH push' acc').
      destruct (xml_pull push' acc' (map IEv (l1 ++ l2))) as [[els rest]|]; [|easy].
      destruct IH as [(r1 & H1 & H2 & H3 & H4)|H]; [left|now right].
      exists r1. repeat split; auto; cbn [length]; [|lia].
      replace (S (length l1) - length r1)%nat with (S (length l1 - length r1)) by lia.
      cbn [firstn app]. now rewrite <- H1.
Qed.

Lemma runs_prefix n l1 l2 os : l2 <> [] -> (length l1 < n)%nat ->
  Runs xml_next (map IEv (l1 ++ l2)) os (Ret []) ->
  exists k, Runs xml_next (map IEv l1 ++ [IErr]) (firstn k os) Panic.
Proof.
  intros Hl2. revert l1 os. induction n as [|n IH]; intros l1 os Hn H; [lia|].
  pose proof (pull_prefix l1 l2 false []) as HP.
  inversion H as [s s' E|s E|s a s1 l r' E H']; subst; unfold xml_next in E;
    destruct (xml_pull false [] (map IEv (l1 ++ l2))) as [[els rest]|]; try easy; cbn [obind] in E.
  - exists O. injection E as E1 E2.
    destruct HP as [(r1 & _ & Hr & _)|H4].
    + exfalso. rewrite Hr in E2. destruct r1, l2; try discriminate. easy.
    + apply Runs_panic. unfold xml_next. now rewrite H4.
  - injection E as E1 E2. destruct HP as [(r1 & _ & Hr & Hl & H4)|H4].
    + subst. destruct (IH r1 l ltac:(lia) H') as (k & K).
      exists (S k). cbn [firstn]. eapply Runs_step; [|exact K].
      unfold xml_next. rewrite H4. cbn. now rewrite E1.
    + exists O. apply Runs_panic. unfold xml_next. now rewrite H4.
Qed.

End Trunc.
