(** The XML and OSC writers over an arbitrary sink: the same functions as in XmlWrite,
    there over a sink that fails for good, here over any implementation of Write. *)
From Coq Require Import String ZArith List Bool Lia.
From Verif Require Import Base Ints Timestamp Obj Coord Utf8 XmlWrite.
Import ListNotations.
Open Scope Z_scope.

Section Io.

(** The type behind [W: Write], and its [write_all]: the new state, and whether the call
    returned Ok. *)
Variable S : Type.
Variable wa : bytes -> S -> S * bool.
(** The pieces in which [write!] delivers a text. *)
Variable pieces : str -> list str.

(** A computation that writes to the sink. *)
Definition g_wm (A : Type) : Type := S -> S * wres A.

Definition g_wret {A} (a : A) : g_wm A := fun s => (s, WOk a).
Definition g_wpanic {A} : g_wm A := fun s => (s, WPanic).
(** The [?] operator. *)
Definition g_wbind {A B} (m : g_wm A) (k : A -> g_wm B) : g_wm B := fun s =>
  match m s with
  | (s', WOk a) => k a s'
  | (s', WErr e) => (s', WErr e)
  | (s', WPanic) => (s', WPanic)
  end.

Local Notation "m ;;; k" := (g_wbind m (fun _ => k)) (at level 100, k at level 200, right associativity).

(** [Write::write_all]. *)
Definition g_write_all (b : bytes) : g_wm unit := fun s =>
  let (s', ok) := wa b s in (s', if ok then WOk tt else WErr EIo).

(** A [for] loop whose body may return early with [?]. *)
Fixpoint g_wfor {A} (l : list A) (f : A -> g_wm unit) : g_wm unit :=
  match l with
  | [] => g_wret tt
  | a :: r => f a;;; g_wfor r f
  end.

(** [write!(writer, ...)] of a formatted text: one call of write_all for each of the
    pieces in which the formatting machinery delivers the text. *)
Definition g_emit (t : str) : g_wm unit := g_wfor (pieces t) (fun p => g_write_all (utf8 p)).

(** [if let Some(x) = o { ... }]. *)
Definition g_wopt {A} (o : option A) (f : A -> g_wm unit) : g_wm unit :=
  match o with Some a => f a | None => g_wret tt end.

(** ** Escaping *)

(** write_xml_escaped, src/xml/mod.rs:59-71 *)
Definition g_write_xml_escaped (s : str) : g_wm unit :=
  g_wfor s (fun c =>
    if c =? 38 then g_emit (lit "&amp;")
    else if c =? 34 then g_emit (lit "&quot;")
    else if c =? 39 then g_emit (lit "&apos;")
    else if c =? 60 then g_emit (lit "&lt;")
    else if c =? 62 then g_emit (lit "&gt;")
    else g_emit [c]).

(** The body of write_obj after the state check: src/xml/mod.rs:436-518.
    [obj.version().unwrap()] is evaluated before its fragment is written. *)
Definition g_xml_write_body (o : sobj) : g_wm unit :=
  g_emit (match s_type o with
        | TNode => nl ++ tab ++ lit "<node"
        | TWay => nl ++ tab ++ lit "<way"
        | TRelation => nl ++ tab ++ lit "<relation"
        end);;;
  g_emit (lit " id=" ++ dq ++ show_int (m_id (s_meta o)) ++ dq);;;
  g_emit (lit " visible=" ++ dq ++ (if m_deleted (s_meta o) then lit "false" else lit "true") ++ dq);;;
  match m_version (s_meta o) with
  | None => g_wpanic
  | Some v => g_emit (lit " version=" ++ dq ++ show_uint v ++ dq)
  end;;;
  g_wopt (m_user (s_meta o)) (fun user =>
    g_emit (lit " user=" ++ dq);;; g_write_xml_escaped user;;; g_emit dq);;;
  g_wopt (m_uid (s_meta o)) (fun uid => g_emit (lit " uid=" ++ dq ++ show_uint uid ++ dq));;;
  g_wopt (m_changeset (s_meta o)) (fun c => g_emit (lit " changeset=" ++ dq ++ show_uint c ++ dq));;;
  g_wopt (m_timestamp (s_meta o)) (fun t => g_emit (lit " timestamp=" ++ dq ++ to_iso_string t ++ dq));;;
  g_wopt (into_node o) (fun n => g_wopt (sn_latlon n) (fun '(lat, lon) =>
    g_emit (lit " lat=" ++ dq ++ show_coord lat ++ dq);;;
    g_emit (lit " lon=" ++ dq ++ show_coord lon ++ dq)));;;
  if is_node o && s_untagged o then g_emit (lit " />") else
  g_emit (lit ">");;;
  g_wopt (into_way o) (fun w => g_wfor (sw_nodes w) (fun nid =>
    g_emit (nl ++ tab ++ tab ++ lit "<nd ref=" ++ dq ++ show_int nid ++ dq ++ lit " />")));;;
  g_wopt (into_relation o) (fun r => g_wfor (sr_members r) (fun '(t, i, role) =>
    g_emit (nl ++ tab ++ tab ++ lit "<member type=" ++ dq ++ name_long t ++ dq
          ++ lit " ref=" ++ dq ++ show_int i ++ dq ++ lit " role=" ++ dq);;;
    (match role with [] => g_wret tt | _ => g_write_xml_escaped role end);;;
    g_emit (dq ++ lit "/>")));;;
  g_wfor (s_tags o) (fun '(k, v) =>
    g_emit (nl ++ tab ++ tab ++ lit "<tag k=" ++ dq);;;
    g_write_xml_escaped k;;;
    g_emit (dq ++ lit " v=" ++ dq);;;
    g_write_xml_escaped v;;;
    g_emit (dq ++ lit " />"));;;
  g_emit (match s_type o with
        | TNode => nl ++ tab ++ lit "</node>"
        | TWay => nl ++ tab ++ lit "</way>"
        | TRelation => nl ++ tab ++ lit "</relation>"
        end).

(** The same body in the OSC writer: src/osc/mod.rs:150-232. *)
Definition g_osc_write_body (o : sobj) : g_wm unit :=
  g_emit (match s_type o with
        | TNode => nl ++ tab ++ lit "<node"
        | TWay => nl ++ tab ++ lit "<way"
        | TRelation => nl ++ tab ++ lit "<relation"
        end);;;
  g_emit (lit " id=" ++ dq ++ show_int (m_id (s_meta o)) ++ dq);;;
  g_emit (lit " visible=" ++ dq ++ (if m_deleted (s_meta o) then lit "false" else lit "true") ++ dq);;;
  match m_version (s_meta o) with
  | None => g_wpanic
  | Some v => g_emit (lit " version=" ++ dq ++ show_uint v ++ dq)
  end;;;
  g_wopt (m_user (s_meta o)) (fun user =>
    g_emit (lit " user=" ++ dq);;; g_write_xml_escaped user;;; g_emit dq);;;
  g_wopt (m_uid (s_meta o)) (fun uid => g_emit (lit " uid=" ++ dq ++ show_uint uid ++ dq));;;
  g_wopt (m_changeset (s_meta o)) (fun c => g_emit (lit " changeset=" ++ dq ++ show_uint c ++ dq));;;
  g_wopt (m_timestamp (s_meta o)) (fun t => g_emit (lit " timestamp=" ++ dq ++ to_iso_string t ++ dq));;;
  g_wopt (into_node o) (fun n => g_wopt (sn_latlon n) (fun '(lat, lon) =>
    g_emit (lit " lat=" ++ dq ++ show_coord lat ++ dq);;;
    g_emit (lit " lon=" ++ dq ++ show_coord lon ++ dq)));;;
  if is_node o && s_untagged o then g_emit (lit " />") else
  g_emit (lit ">");;;
  g_wopt (into_way o) (fun w => g_wfor (sw_nodes w) (fun nid =>
    g_emit (nl ++ tab ++ tab ++ lit "<nd ref=" ++ dq ++ show_int nid ++ dq ++ lit " />")));;;
  g_wopt (into_relation o) (fun r => g_wfor (sr_members r) (fun '(t, i, role) =>
    g_emit (nl ++ tab ++ tab ++ lit "<member type=" ++ dq ++ name_long t ++ dq
          ++ lit " ref=" ++ dq ++ show_int i ++ dq ++ lit " role=" ++ dq);;;
    (match role with [] => g_wret tt | _ => g_write_xml_escaped role end);;;
    g_emit (dq ++ lit "/>")));;;
  g_wfor (s_tags o) (fun '(k, v) =>
    g_emit (nl ++ tab ++ tab ++ lit "<tag k=" ++ dq);;;
    g_write_xml_escaped k;;;
    g_emit (dq ++ lit " v=" ++ dq);;;
    g_write_xml_escaped v;;;
    g_emit (dq ++ lit " />"));;;
  g_emit (match s_type o with
        | TNode => nl ++ tab ++ lit "</node>"
        | TWay => nl ++ tab ++ lit "</way>"
        | TRelation => nl ++ tab ++ lit "</relation>"
        end).

(** ** Writer state *)

(** XMLWriter, src/xml/mod.rs:142-147.  The headers are the entries of the
    HashMap, one per key.  OSCWriter (src/osc/mod.rs:25-29) has no headers; its
    list stays empty. *)
Record g_writer := GWriter { g_w_sink : S; g_w_headers : list (str * str); g_w_state : wstate }.

(** OSMWriter::new, src/xml/mod.rs:395-402, src/osc/mod.rs:117-123 *)
Definition g_new_writer (s : S) : g_writer := GWriter s [] Initial.

(** is_open, src/xml/mod.rs:415-417, src/osc/mod.rs:125-127 *)
Definition g_is_open (w : g_writer) : bool :=
  match g_w_state w with Closed => false | _ => true end.

(** The order in which the header HashMap iterates; arbitrary. *)
Variable ord : list (str * str) -> list (str * str).

(** XMLWriter::ensure_header, src/xml/mod.rs:372-391.  The state changes only
    when everything was written. *)
Definition g_xml_ensure_header (w : g_writer) : g_writer * wres unit :=
  match g_w_state w with
  | Initial =>
      match
        (g_emit (lit "<?xml version=" ++ dq ++ lit "1.0" ++ dq ++ lit " encoding=" ++ dq
               ++ lit "utf-8" ++ dq ++ lit "?>" ++ nl);;;
         g_emit (lit "<osm version=" ++ dq ++ lit "0.6" ++ dq ++ lit " generator=" ++ dq
               ++ lit "osmio/" ++ crate_version ++ dq);;;
         g_wfor (ord (g_w_headers w)) (fun '(k, v) =>
           g_emit (lit " " ++ k ++ lit "=" ++ dq);;;
           g_write_xml_escaped v;;;
           g_emit dq);;;
         g_emit (lit ">")) (g_w_sink w)
      with
      | (s, WOk _) => (GWriter s (g_w_headers w) WritingObjects, WOk tt)
      | (s, r) => (GWriter s (g_w_headers w) Initial, r)
      end
  | _ => (w, WOk tt)
  end.

(** XMLWriter::set_header, src/xml/mod.rs:404-413 *)
Definition g_xml_set_header (k v : str) (w : g_writer) : g_writer * wres unit :=
  match g_w_state w with
  | Initial => (GWriter (g_w_sink w) (map_insert k v (g_w_headers w)) Initial, WOk tt)
  | Closed => (w, WErr EClosed)
  | _ => (w, WErr EStarted)
  end.

(** XMLWriter::close, src/xml/mod.rs:419-427; also run by Drop, 527-531 *)
Definition g_xml_close (w : g_writer) : g_writer * wres unit :=
  match g_xml_ensure_header w with
  | (w1, WOk _) =>
      match g_emit (nl ++ lit "</osm>") (g_w_sink w1) with
      | (s, WOk _) => (GWriter s (g_w_headers w1) Closed, WOk tt)
      | (s, r) => (GWriter s (g_w_headers w1) (g_w_state w1), r)
      end
  | (w1, r) => (w1, r)
  end.

(** XMLWriter::write_obj, src/xml/mod.rs:429-519 *)
Definition g_xml_write_obj (o : sobj) (w : g_writer) : g_writer * wres unit :=
  let body w1 :=
    match g_xml_write_body o (g_w_sink w1) with
    | (s, r) => (GWriter s (g_w_headers w1) (g_w_state w1), r)
    end in
  match g_w_state w with
  | Initial =>
      match g_xml_ensure_header w with
      | (w1, WOk _) => body w1
      | (w1, r) => (w1, r)
      end
  | WritingObjects => body w
  | Closed => (w, WErr EClosed)
  end.

(** OSCWriter::ensure_header, src/osc/mod.rs:94-114 *)
Definition g_osc_ensure_header (w : g_writer) : g_writer * wres unit :=
  match g_w_state w with
  | Initial =>
      match
        (g_emit (lit "<?xml version=" ++ dq ++ lit "1.0" ++ dq ++ lit " encoding=" ++ dq
               ++ lit "utf-8" ++ dq ++ lit "?>" ++ nl);;;
         g_emit (lit "<osmChange version=" ++ dq ++ lit "0.6" ++ dq ++ lit " generator=" ++ dq
               ++ lit "osmio/" ++ crate_version ++ dq);;;
         g_emit (lit ">");;;
         g_emit (nl ++ lit "<modify>")) (g_w_sink w)
      with
      | (s, WOk _) => (GWriter s (g_w_headers w) WritingObjects, WOk tt)
      | (s, r) => (GWriter s (g_w_headers w) Initial, r)
      end
  | _ => (w, WOk tt)
  end.

(** OSCWriter inherits set_header from the trait, src/lib.rs:732-734: todo!(). *)
Definition g_osc_set_header (k v : str) (w : g_writer) : g_writer * wres unit := (w, WPanic).

(** OSCWriter::close, src/osc/mod.rs:129-140; also run by Drop, 241-245 *)
Definition g_osc_close (w : g_writer) : g_writer * wres unit :=
  match g_osc_ensure_header w with
  | (w1, WOk _) =>
      match g_w_state w1 with
      | Closed => (w1, WOk tt)
      | _ =>
          match (g_emit (nl ++ lit "</modify>");;; g_emit (nl ++ lit "</osmChange>")) (g_w_sink w1) with
          | (s, WOk _) => (GWriter s (g_w_headers w1) Closed, WOk tt)
          | (s, r) => (GWriter s (g_w_headers w1) (g_w_state w1), r)
          end
      end
  | (w1, r) => (w1, r)
  end.

(** OSCWriter::write_obj, src/osc/mod.rs:142-233 *)
Definition g_osc_write_obj (o : sobj) (w : g_writer) : g_writer * wres unit :=
  let body w1 :=
    match g_osc_write_body o (g_w_sink w1) with
    | (s, r) => (GWriter s (g_w_headers w1) (g_w_state w1), r)
    end in
  match g_w_state w with
  | Initial =>
      match g_osc_ensure_header w with
      | (w1, WOk _) => body w1
      | (w1, r) => (w1, r)
      end
  | WritingObjects => body w
  | Closed => (w, WErr EClosed)
  end.

(** ** Call histories *)

Definition g_xml_call (w : g_writer) (c : call) : g_writer * wres unit :=
  match c with
  | CSetHeader k v => g_xml_set_header k v w
  | CWrite o => g_xml_write_obj o w
  | CClose => g_xml_close w
  end.

Definition g_osc_call (w : g_writer) (c : call) : g_writer * wres unit :=
  match c with
  | CSetHeader k v => g_osc_set_header k v w
  | CWrite o => g_osc_write_obj o w
  | CClose => g_osc_close w
  end.

(** A sequence of calls; a caller that catches an error or a panic may go on
    using the writer, so the sequence goes on whatever a call returned. *)
Fixpoint g_run_calls (f : g_writer -> call -> g_writer * wres unit) (w : g_writer) (cs : list call)
  : g_writer * list (wres unit) :=
  match cs with
  | [] => (w, [])
  | c :: r =>
      let '(w1, x) := f w c in
      let '(w2, xs) := g_run_calls f w1 r in
      (w2, x :: xs)
  end.

End Io.
