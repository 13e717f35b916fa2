(** Properties of copying: reading a file and writing what was read. *)
From Coq Require Import String ZArith List Bool Lia Permutation.
From Coq Require Import ZifyBool ZifyNat.
From Verif Require Import Base Ints Timestamp Obj Coord Utf8 XmlWrite SpecXml SpecWriter XmlWriteFacts XmlToken XmlRead
  SpecXmlRead SpecIter SpecXmlText XmlExact XmlReadBack XmlCopy PropsWriter PropsXml PropsXmlExact.
Import ListNotations.
Open Scope Z_scope.

(** What the parser changes in attribute values is white space, and stays white space. *)
Definition spaces (attr_ws : char -> char) : Prop :=
  normalises attr_ws /\ forall c, c = 9 \/ c = 10 \/ c = 13 ->
    attr_ws c = 9 \/ attr_ws c = 10 \/ attr_ws c = 13 \/ attr_ws c = 32.

(** A text that the parser's normalisation leaves alone. *)
Definition untouched (attr_ws : char -> char) (s : str) : Prop := Forall (fun c => attr_ws c = c) s.

(** An object a copy of the file has as well: a node has a position, no text has white space the
    parser changes, and the timestamp needs no escaping. *)
Definition copied (attr_ws : char -> char) (o : sobj) : Prop :=
  has_position o /\ texts (untouched attr_ws) (fun s => untouched attr_ws s /\ plain s) o.

Lemma spaces_char aw : spaces aw -> forall c, xml_char c = true -> xml_char (aw c) = true.
Proof.
  intros [Hn Hs] c Hc. assert (D : (c = 9 \/ c = 10 \/ c = 13) \/ (c <> 9 /\ c <> 10 /\ c <> 13)) by lia.
  destruct D as [D|(A & B & C)]; [|now rewrite Hn].
  destruct (Hs c D) as [-> | [-> | [-> | ->]]]; reflexivity.
Qed.

Lemma texts_mono (Q T Q' T' : str -> Prop) o : (forall s, Q s -> Q' s) -> (forall s, T s -> T' s) -> texts Q T o -> texts Q' T' o.
Proof.
  intros HQ HT (A & B & C & D). split; [|split; [|split]].
  - destruct (m_user (s_meta o)); cbn in *; auto.
  - eapply Forall_impl; [|exact B]. intros t [X Y]. auto.
  - eapply Forall_impl; [|exact C]. cbn. auto.
  - destruct (m_timestamp (s_meta o)); cbn in *; auto.
Qed.

Lemma texts_and (Q T Q' T' : str -> Prop) o : texts Q T o -> texts Q' T' o -> texts (fun s => Q s /\ Q' s) (fun s => T s /\ T' s) o.
Proof.
  intros (A & B & C & D) (A' & B' & C' & D'). split; [|split; [|split]].
  - destruct (m_user (s_meta o)); cbn in *; auto.
  - rewrite Forall_forall in *. intros t Ht. specialize (B t Ht). specialize (B' t Ht). tauto.
  - rewrite Forall_forall in *. intros t Ht. specialize (C t Ht). specialize (C' t Ht). tauto.
  - destruct (m_timestamp (s_meta o)); cbn in *; auto.
Qed.

Lemma xtext_valid s : xtext s -> valid_str s.
Proof. apply Forall_impl. intros c Hc. unfold xml_char in Hc. unfold scalar. lia. Qed.

Lemma from_xml_as_read o : as_from_xml o -> as_read o = o.
Proof.
  intros (_ & _ & H). destruct o as [[[i v d c t u n] tg ll]|[[i v d c t u n] tg ns]|[[i v d c t u n] tg ms]];
    cbn in *; unfold meta_as_read; cbn; (destruct t as [t|]; [|reflexivity]);
    destruct (H t eq_refl) as (s & ->); reflexivity.
Qed.

Lemma from_xml_copied aw o : as_from_xml o -> (comes_back aw o <-> copied aw o).
Proof.
  intros (_ & X & _). unfold comes_back, copied. split; intros [A B]; (split; [exact A|]).
  - eapply texts_mono; [| |exact B].
    + intros s C. eapply Forall_impl; [|exact C]. now intros c [_ K].
    + intros s [C D]. split; [|exact D]. eapply Forall_impl; [|exact C]. now intros c [_ K].
  - eapply texts_mono; [| |exact (texts_and _ _ _ _ _ X B)].
    + intros s [C D]. apply Forall_and; assumption.
    + intros s [C [D E]]. split; [apply Forall_and; assumption|exact E].
Qed.

Lemma runs_osc s l r : Runs osc_next s l r <-> Runs xml_next s l r.
Proof.
  split; induction 1; [apply Runs_end|apply Runs_panic|eapply Runs_step|apply Runs_end|apply Runs_panic|eapply Runs_step];
    rewrite ?osc_next_eq in *; eauto.
Qed.

(** ** C111 *)

(** Whatever bytes are read, with whatever outcome, every object that is returned has its numbers
    in range and XML characters in its texts, and reading has nothing left to change in it. *)
Theorem C111_objects : forall attr_ws, spaces attr_ws -> forall b os r,
  Runs xml_next (xml_items attr_ws b) os r \/ Runs osc_next (xml_items attr_ws b) os r ->
  Forall (fun o => in_range o /\ as_read o = o
    /\ texts (Forall (fun c => xml_char c = true)) (Forall (fun c => xml_char c = true)) o) os.
Proof.
  intros aw Hw b os r H. rewrite runs_osc in H. assert (R : Runs xml_next (xml_items aw b) os r) by tauto.
  eapply Forall_impl; [|exact (runs_ok _ _ _ R (items_ok aw (spaces_char aw Hw) b))].
  intros o Ho. split; [apply Ho|]. split; [now apply from_xml_as_read|apply Ho].
Qed.
Print Assumptions C111_objects.

(** Copying through the XML writer: the copy has exactly the objects that were read from the
    original, whatever the original, exactly if each of them is one a copy can have. *)
Theorem C111_copy : forall attr_ws, spaces attr_ws -> forall ord, (forall l, Permutation (ord l) l) ->
  forall b os r, Runs xml_next (xml_items attr_ws b) os r \/ Runs osc_next (xml_items attr_ws b) os r ->
  Forall (fun o => m_version (s_meta o) <> None) os ->
  forall cs, closes cs = 1%nat -> good_header_calls attr_ws (header_calls cs) -> written cs = os ->
  (Runs xml_next (xml_items attr_ws (out (fst (run_calls (xml_call ord) (new_writer None) cs)))) os (Ret [])
   <-> Forall (copied attr_ws) os).
Proof.
  intros aw Hw ord Hord b os r H Hv cs Hc Hh Hos. rewrite runs_osc in H. assert (R : Runs xml_next (xml_items aw b) os r) by tauto.
  pose proof (runs_ok _ _ _ R (items_ok aw (spaces_char aw Hw) b)) as F.
  assert (E : map as_read os = os).
  { rewrite <- (map_id os) at 2. apply map_ext_in. intros o Ho. rewrite Forall_forall in F. apply from_xml_as_read, F, Ho. }
  pose proof (C27_exact aw (proj1 Hw) ord Hord cs Hc Hh) as X. rewrite Hos, E in X. rewrite X.
  - rewrite !Forall_forall in *. split; intros K o Ho; apply (from_xml_copied aw o (F o Ho)), K, Ho.
  - rewrite Forall_forall in *. intros o Ho. split; [apply F, Ho|]. split; [apply Hv, Ho|].
    eapply texts_mono; [exact xtext_valid|exact xtext_valid|apply F, Ho].
Qed.
Print Assumptions C111_copy.

(** The same through the change writer, which is closed as often as one likes. *)
Theorem C111_copy_osc : forall attr_ws, spaces attr_ws ->
  forall b os r, Runs xml_next (xml_items attr_ws b) os r \/ Runs osc_next (xml_items attr_ws b) os r ->
  Forall (fun o => m_version (s_meta o) <> None) os ->
  forall cs, written cs = os ->
  (Runs osc_next (xml_items attr_ws (out (fst (run_calls osc_call (new_writer None) (cs ++ [CClose]))))) os (Ret [])
   <-> Forall (copied attr_ws) os).
Proof.
  intros aw Hw b os r H Hv cs Hos. rewrite runs_osc in H. assert (R : Runs xml_next (xml_items aw b) os r) by tauto.
  pose proof (runs_ok _ _ _ R (items_ok aw (spaces_char aw Hw) b)) as F.
  assert (E : map as_read os = os).
  { rewrite <- (map_id os) at 2. apply map_ext_in. intros o Ho. rewrite Forall_forall in F. apply from_xml_as_read, F, Ho. }
  pose proof (C28_exact aw (proj1 Hw) cs) as X. rewrite Hos, E in X. rewrite X.
  - rewrite !Forall_forall in *. split; intros K o Ho; apply (from_xml_copied aw o (F o Ho)), K, Ho.
  - rewrite Forall_forall in *. intros o Ho. split; [apply F, Ho|]. split; [apply Hv, Ho|].
    eapply texts_mono; [exact xtext_valid|exact xtext_valid|apply F, Ho].
Qed.
Print Assumptions C111_copy_osc.

Lemma obj_text_as_read o : obj_text (as_read o) = obj_text o.
Proof. destruct o as [[[i v d c [t|] u n] tg ll]|[[i v d c [t|] u n] tg ns]|[[i v d c [t|] u n] tg ms]]; reflexivity. Qed.
Lemma obj_texts_as_read os : flat_map obj_text (map as_read os) = flat_map obj_text os.
Proof. induction os as [|o os IH]; [reflexivity|]. cbn [map flat_map]. now rewrite obj_text_as_read, IH. Qed.
Lemma version_as_read os : Forall (fun o => m_version (s_meta o) <> None) os -> Forall (fun o => m_version (s_meta o) <> None) (map as_read os).
Proof. rewrite Forall_map. apply Forall_impl. now intros []. Qed.

Lemma header_map_unique hs1 hs2 l : header_map hs1 l -> header_map hs2 l -> Permutation hs1 hs2.
Proof.
  intros [N1 H1] [N2 H2]. apply NoDup_Permutation; [exact (NoDup_map_inv _ _ N1)|exact (NoDup_map_inv _ _ N2)|].
  intros [k v]. now rewrite H1, H2.
Qed.

(** A copy of a file this writer made has the same text: all that can differ is the order of the
    headers in the root element ... *)
Theorem C111_same_text : forall attr_ws, normalises attr_ws ->
  forall ord, (forall l, Permutation (ord l) l) -> forall ord', (forall l, Permutation (ord' l) l) ->
  forall cs, closes cs = 1%nat -> good_header_calls attr_ws (header_calls cs) -> Forall (xml_object attr_ws) (written cs) ->
  forall cs', closes cs' = 1%nat -> header_calls cs' = header_calls cs ->
  let original := out (fst (run_calls (xml_call ord) (new_writer None) cs)) in
  let copy := out (fst (run_calls (xml_call ord') (new_writer None) cs')) in
  forall r, Runs xml_next (xml_items attr_ws original) (written cs') r ->
  exists hs hs' rest, Permutation hs hs' /\ original = utf8 (xml_opening hs ++ rest) /\ copy = utf8 (xml_opening hs' ++ rest)
    /\ (header_calls cs = [] -> copy = original).
Proof.
  intros aw Hw ord Hord ord' Hord' cs Hc Hh Ho cs' Hc' Hh' original copy r R. unfold original, copy in *.
  pose proof (C27_roundtrip_partial aw Hw ord Hord cs Hc Ho Hh) as R0.
  destruct (Runs_det _ _ _ _ R _ _ R0) as [E _].
  assert (Hv : Forall (fun o => m_version (s_meta o) <> None) (written cs)).
  { eapply Forall_impl; [|exact Ho]. intros o (_ & H & _). exact H. }
  destruct (C25_document_partial ord Hord cs Hc Hv) as (hs & M & D).
  assert (Hv' : Forall (fun o => m_version (s_meta o) <> None) (written cs')) by (rewrite E; now apply version_as_read).
  destruct (C25_document_partial ord' Hord' cs' Hc' Hv') as (hs' & M' & D').
  rewrite Hh' in M'. rewrite E in D'. unfold xml_document in D, D'. rewrite obj_texts_as_read in D'.
  exists hs, hs'. eexists. split; [exact (header_map_unique _ _ _ M M')|]. split; [exact D|]. split; [exact D'|].
  intros N. rewrite N in M, M'. rewrite D, D'.
  assert (Z : forall l, header_map l [] -> l = []).
  { intros [|[k v] l] [_ L]; [reflexivity|]. assert (In (k, v) ((k, v) :: l)) as K by now left. apply L in K. discriminate. }
  now rewrite (Z _ M), (Z _ M').
Qed.
Print Assumptions C111_same_text.

(** ... and for change files nothing. *)
Theorem C111_same_bytes_osc : forall attr_ws, normalises attr_ws ->
  forall cs, Forall (xml_object attr_ws) (written cs) ->
  let original := out (fst (run_calls osc_call (new_writer None) (cs ++ [CClose]))) in
  forall cs' r, Runs osc_next (xml_items attr_ws original) (written cs') r ->
  out (fst (run_calls osc_call (new_writer None) (cs' ++ [CClose]))) = original.
Proof.
  intros aw Hw cs Ho original cs' r R. unfold original in *.
  pose proof (C28_roundtrip aw Hw cs Ho) as R0. destruct (Runs_det _ _ _ _ R _ _ R0) as [E _].
  assert (Hv : Forall (fun o => m_version (s_meta o) <> None) (written cs)).
  { eapply Forall_impl; [|exact Ho]. intros o (_ & H & _). exact H. }
  rewrite !C24_document; [|exact Hv|rewrite E; now apply version_as_read].
  rewrite E. unfold osc_document. now rewrite obj_texts_as_read.
Qed.
Print Assumptions C111_same_bytes_osc.

(** A file in which a way has a tab given by reference and a timestamp with a less-than sign given
    by reference, which the readers take as they are. *)
Definition odd_file (value stamp : str) : list Z :=
  utf8 (lit "<osm><way id='1' version='1' timestamp='" ++ stamp ++ lit "'><tag k='a' v='" ++ value ++ lit "'/></way></osm>").
Definition odd_way (value stamp : str) : sobj :=
  SWay (SW (Meta 1 (Some 1) false None (Some (ISOString stamp)) None None) [(lit "a", value)] []).
Definition to_space (c : char) : char := if (c =? 9) || (c =? 10) || (c =? 13) then 32 else c.

Example C111_ex :
  spaces to_space /\ spaces (fun c => c)
  /\ Runs xml_next (xml_items to_space (odd_file (lit "x&#9;y") (lit "2020"))) [odd_way (lit "x" ++ [9] ++ lit "y") (lit "2020")] (Ret [])
  /\ ~ copied to_space (odd_way (lit "x" ++ [9] ++ lit "y") (lit "2020"))
  /\ copied (fun c => c) (odd_way (lit "x" ++ [9] ++ lit "y") (lit "2020"))
  /\ Runs xml_next (xml_items to_space (odd_file (lit "x&amp;y") (lit "&lt;"))) [odd_way (lit "x&y") (lit "<")] (Ret [])
  /\ ~ copied to_space (odd_way (lit "x&y") (lit "<"))
  /\ Runs xml_next (xml_items to_space (odd_file (lit "x&amp;y") (lit "2020"))) [odd_way (lit "x&y") (lit "2020")] (Ret [])
  /\ copied to_space (odd_way (lit "x&y") (lit "2020"))
  /\ Runs xml_next (xml_items to_space (out (fst (run_calls (xml_call (fun l => l)) (new_writer None)
       [CWrite (odd_way (lit "x&y") (lit "2020")); CClose])))) [odd_way (lit "x&y") (lit "2020")] (Ret []).
Proof.
  assert (U : forall s, forallb (fun c => to_space c =? c) s = true -> untouched to_space s).
  { intros s H. rewrite forallb_forall in H. apply Forall_forall. intros c Hc. specialize (H c Hc). lia. }
  split; [split; [intros c A B C; unfold to_space; destruct ((c =? 9) || (c =? 10) || (c =? 13)) eqn:E; lia|intros c [-> | [-> | ->]]; cbn; tauto]|].
  split; [split; [easy|cbn; intros c; lia]|].
  split; [eapply Runs_step; [vm_compute; reflexivity|]; apply Runs_end; vm_compute; reflexivity|].
  split; [intros (_ & _ & K & _); inversion K as [|? ? [_ K'] _]; cbn in K'; inversion K' as [|? ? _ K2]; inversion K2; discriminate|].
  split.
  { split; [exact I|]. split; [exact I|]. split; [constructor; [|constructor]; split; apply Forall_forall; reflexivity|].
    split; [constructor|]. cbn. split; [apply Forall_forall; reflexivity|]. apply plainb_iff. reflexivity. }
  split; [eapply Runs_step; [vm_compute; reflexivity|]; apply Runs_end; vm_compute; reflexivity|].
  split; [intros (_ & _ & _ & _ & _ & K); cbn in K; inversion K; lia|].
  split; [eapply Runs_step; [vm_compute; reflexivity|]; apply Runs_end; vm_compute; reflexivity|].
  split.
  { split; [exact I|]. split; [exact I|]. split; [constructor; [|constructor]; split; apply U; reflexivity|].
    split; [constructor|]. cbn. split; [apply U; reflexivity|]. apply plainb_iff. reflexivity. }
  eapply Runs_step; [vm_compute; reflexivity|]; apply Runs_end; vm_compute; reflexivity.
Qed.
