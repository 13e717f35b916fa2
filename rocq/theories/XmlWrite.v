(** The XML and OSC writers: src/xml/mod.rs:59-71, 134-147, 371-531 and
    src/osc/mod.rs:18-29, 93-245, over a byte sink that may fail. *)
From Coq Require Import String ZArith List Bool Lia.
From Verif Require Import Base Ints Timestamp Obj Coord Utf8.
Import ListNotations.
Open Scope Z_scope.

(** ** The sink *)

(** The [W: Write] behind a writer: the bytes it received, and how many more it
    takes before it fails for good ([None]: it never fails).  [flush] is never
    called by the crate. *)
Record sink := Sink { s_out : bytes; s_cap : option nat }.

(** OSMWriteError, src/lib.rs:693-706 (the variants the XML and OSC writers
    return; the payload of an I/O error is dropped). *)
Inductive werr := EIo | EClosed | EStarted.

(** What a call returned: Ok, Err or a panic. *)
Inductive wres (A : Type) := WOk (a : A) | WErr (e : werr) | WPanic.
Arguments WOk {A} a.
Arguments WErr {A} e.
Arguments WPanic {A}.

(** A computation that writes to the sink. *)
Definition wm (A : Type) : Type := sink -> sink * wres A.

Definition wret {A} (a : A) : wm A := fun s => (s, WOk a).
Definition wpanic {A} : wm A := fun s => (s, WPanic).
(** The [?] operator. *)
Definition wbind {A B} (m : wm A) (k : A -> wm B) : wm B := fun s =>
  match m s with
  | (s', WOk a) => k a s'
  | (s', WErr e) => (s', WErr e)
  | (s', WPanic) => (s', WPanic)
  end.

Notation "m ;; k" := (wbind m (fun _ => k)) (at level 100, k at level 200, right associativity).

(** [Write::write_all]: bytes go out until the sink's capacity is used up; then
    the call fails.  A [write!] with several fragments makes several such calls;
    on this sink that is the same as one call on the concatenation. *)
Definition write_all (b : bytes) : wm unit := fun s =>
  match s_cap s with
  | None => (Sink (s_out s ++ b) None, WOk tt)
  | Some n =>
      if Nat.leb (length b) n then (Sink (s_out s ++ b) (Some (n - length b)%nat), WOk tt)
      else (Sink (s_out s ++ firstn n b) (Some O), WErr EIo)
  end.

(** [write!(writer, ...)] of a formatted text. *)
Definition emit (t : str) : wm unit := write_all (utf8 t).

(** A [for] loop whose body may return early with [?]. *)
Fixpoint wfor {A} (l : list A) (f : A -> wm unit) : wm unit :=
  match l with
  | [] => wret tt
  | a :: r => f a;; wfor r f
  end.

(** [if let Some(x) = o { ... }]. *)
Definition wopt {A} (o : option A) (f : A -> wm unit) : wm unit :=
  match o with Some a => f a | None => wret tt end.

(** ** Escaping *)

(** write_xml_escaped, src/xml/mod.rs:59-71 *)
Definition write_xml_escaped (s : str) : wm unit :=
  wfor s (fun c =>
    if c =? 38 then emit (lit "&amp;")
    else if c =? 34 then emit (lit "&quot;")
    else if c =? 39 then emit (lit "&apos;")
    else if c =? 60 then emit (lit "&lt;")
    else if c =? 62 then emit (lit "&gt;")
    else emit [c]).

(** The double quote, newline and tab characters. *)
Definition dq : str := [34].
Definition nl : str := [10].
Definition tab : str := [9].

(** version(), src/lib.rs:757-759, with the version of Cargo.toml:3. *)
Definition crate_version : str := lit "0.16.1".

(** ** What a writer sees of an object *)

(** The writers are generic over [impl OSMObj] and use only the getters
    object_type, id, deleted, version, user, uid, changeset_id, timestamp,
    as_node/lat_lon, untagged, as_way/nodes, as_relation/members and tags.  They
    are modelled on String objects; an Arc or Rc object is written through this
    view, which has the same getters (lemma [view_getters]). *)
Definition view (o : aobj) : sobj :=
  match o with
  | ANode n => SNode (SN (an_meta n) (a_tags (ANode n)) (an_latlon n))
  | AWay w => SWay (SW (aw_meta w) (aw_tags w) (aw_nodes w))
  | ARel r => SRel (SR (ar_meta r) (ar_tags r) (ar_members r))
  end.

(** The body of write_obj after the state check: src/xml/mod.rs:436-518.
    [obj.version().unwrap()] is evaluated before its fragment is written. *)
Definition xml_write_body (o : sobj) : wm unit :=
  emit (match s_type o with
        | TNode => nl ++ tab ++ lit "<node"
        | TWay => nl ++ tab ++ lit "<way"
        | TRelation => nl ++ tab ++ lit "<relation"
        end);;
  emit (lit " id=" ++ dq ++ show_int (m_id (s_meta o)) ++ dq);;
  emit (lit " visible=" ++ dq ++ (if m_deleted (s_meta o) then lit "false" else lit "true") ++ dq);;
  match m_version (s_meta o) with
  | None => wpanic
  | Some v => emit (lit " version=" ++ dq ++ show_uint v ++ dq)
  end;;
  wopt (m_user (s_meta o)) (fun user =>
    emit (lit " user=" ++ dq);; write_xml_escaped user;; emit dq);;
  wopt (m_uid (s_meta o)) (fun uid => emit (lit " uid=" ++ dq ++ show_uint uid ++ dq));;
  wopt (m_changeset (s_meta o)) (fun c => emit (lit " changeset=" ++ dq ++ show_uint c ++ dq));;
  wopt (m_timestamp (s_meta o)) (fun t => emit (lit " timestamp=" ++ dq ++ to_iso_string t ++ dq));;
  wopt (into_node o) (fun n => wopt (sn_latlon n) (fun '(lat, lon) =>
    emit (lit " lat=" ++ dq ++ show_coord lat ++ dq);;
    emit (lit " lon=" ++ dq ++ show_coord lon ++ dq)));;
  if is_node o && s_untagged o then emit (lit " />") else
  emit (lit ">");;
  wopt (into_way o) (fun w => wfor (sw_nodes w) (fun nid =>
    emit (nl ++ tab ++ tab ++ lit "<nd ref=" ++ dq ++ show_int nid ++ dq ++ lit " />")));;
  wopt (into_relation o) (fun r => wfor (sr_members r) (fun '(t, i, role) =>
    emit (nl ++ tab ++ tab ++ lit "<member type=" ++ dq ++ name_long t ++ dq
          ++ lit " ref=" ++ dq ++ show_int i ++ dq ++ lit " role=" ++ dq);;
    (match role with [] => wret tt | _ => write_xml_escaped role end);;
    emit (dq ++ lit "/>")));;
  wfor (s_tags o) (fun '(k, v) =>
    emit (nl ++ tab ++ tab ++ lit "<tag k=" ++ dq);;
    write_xml_escaped k;;
    emit (dq ++ lit " v=" ++ dq);;
    write_xml_escaped v;;
    emit (dq ++ lit " />"));;
  emit (match s_type o with
        | TNode => nl ++ tab ++ lit "</node>"
        | TWay => nl ++ tab ++ lit "</way>"
        | TRelation => nl ++ tab ++ lit "</relation>"
        end).

(** The same body in the OSC writer: src/osc/mod.rs:150-232. *)
Definition osc_write_body (o : sobj) : wm unit :=
  emit (match s_type o with
        | TNode => nl ++ tab ++ lit "<node"
        | TWay => nl ++ tab ++ lit "<way"
        | TRelation => nl ++ tab ++ lit "<relation"
        end);;
  emit (lit " id=" ++ dq ++ show_int (m_id (s_meta o)) ++ dq);;
  emit (lit " visible=" ++ dq ++ (if m_deleted (s_meta o) then lit "false" else lit "true") ++ dq);;
  match m_version (s_meta o) with
  | None => wpanic
  | Some v => emit (lit " version=" ++ dq ++ show_uint v ++ dq)
  end;;
  wopt (m_user (s_meta o)) (fun user =>
    emit (lit " user=" ++ dq);; write_xml_escaped user;; emit dq);;
  wopt (m_uid (s_meta o)) (fun uid => emit (lit " uid=" ++ dq ++ show_uint uid ++ dq));;
  wopt (m_changeset (s_meta o)) (fun c => emit (lit " changeset=" ++ dq ++ show_uint c ++ dq));;
  wopt (m_timestamp (s_meta o)) (fun t => emit (lit " timestamp=" ++ dq ++ to_iso_string t ++ dq));;
  wopt (into_node o) (fun n => wopt (sn_latlon n) (fun '(lat, lon) =>
    emit (lit " lat=" ++ dq ++ show_coord lat ++ dq);;
    emit (lit " lon=" ++ dq ++ show_coord lon ++ dq)));;
  if is_node o && s_untagged o then emit (lit " />") else
  emit (lit ">");;
  wopt (into_way o) (fun w => wfor (sw_nodes w) (fun nid =>
    emit (nl ++ tab ++ tab ++ lit "<nd ref=" ++ dq ++ show_int nid ++ dq ++ lit " />")));;
  wopt (into_relation o) (fun r => wfor (sr_members r) (fun '(t, i, role) =>
    emit (nl ++ tab ++ tab ++ lit "<member type=" ++ dq ++ name_long t ++ dq
          ++ lit " ref=" ++ dq ++ show_int i ++ dq ++ lit " role=" ++ dq);;
    (match role with [] => wret tt | _ => write_xml_escaped role end);;
    emit (dq ++ lit "/>")));;
  wfor (s_tags o) (fun '(k, v) =>
    emit (nl ++ tab ++ tab ++ lit "<tag k=" ++ dq);;
    write_xml_escaped k;;
    emit (dq ++ lit " v=" ++ dq);;
    write_xml_escaped v;;
    emit (dq ++ lit " />"));;
  emit (match s_type o with
        | TNode => nl ++ tab ++ lit "</node>"
        | TWay => nl ++ tab ++ lit "</way>"
        | TRelation => nl ++ tab ++ lit "</relation>"
        end).

(** ** Writer state *)

(** enum State, src/xml/mod.rs:135-140, src/osc/mod.rs:18-23 *)
Inductive wstate := Initial | WritingObjects | Closed.

(** XMLWriter, src/xml/mod.rs:142-147.  The headers are the entries of the
    HashMap, one per key.  OSCWriter (src/osc/mod.rs:25-29) has no headers; its
    list stays empty. *)
Record writer := Writer { w_sink : sink; w_headers : list (str * str); w_state : wstate }.

(** HashMap::insert. *)
Fixpoint map_insert (k v : str) (l : list (str * str)) : list (str * str) :=
  match l with
  | [] => [(k, v)]
  | (k', v') :: r => if str_eqb k' k then (k, v) :: r else (k', v') :: map_insert k v r
  end.

(** OSMWriter::new, src/xml/mod.rs:395-402, src/osc/mod.rs:117-123 *)
Definition new_writer (cap : option nat) : writer := Writer (Sink [] cap) [] Initial.

(** is_open, src/xml/mod.rs:415-417, src/osc/mod.rs:125-127 *)
Definition is_open (w : writer) : bool :=
  match w_state w with Closed => false | _ => true end.

Section Writers.

(** The order in which the header HashMap iterates; arbitrary. *)
Variable ord : list (str * str) -> list (str * str).

(** XMLWriter::ensure_header, src/xml/mod.rs:372-391.  The state changes only
    when everything was written. *)
Definition xml_ensure_header (w : writer) : writer * wres unit :=
  match w_state w with
  | Initial =>
      match
        (emit (lit "<?xml version=" ++ dq ++ lit "1.0" ++ dq ++ lit " encoding=" ++ dq
               ++ lit "utf-8" ++ dq ++ lit "?>" ++ nl);;
         emit (lit "<osm version=" ++ dq ++ lit "0.6" ++ dq ++ lit " generator=" ++ dq
               ++ lit "osmio/" ++ crate_version ++ dq);;
         wfor (ord (w_headers w)) (fun '(k, v) =>
           emit (lit " " ++ k ++ lit "=" ++ dq);;
           write_xml_escaped v;;
           emit dq);;
         emit (lit ">")) (w_sink w)
      with
      | (s, WOk _) => (Writer s (w_headers w) WritingObjects, WOk tt)
      | (s, r) => (Writer s (w_headers w) Initial, r)
      end
  | _ => (w, WOk tt)
  end.

(** XMLWriter::set_header, src/xml/mod.rs:404-413 *)
Definition xml_set_header (k v : str) (w : writer) : writer * wres unit :=
  match w_state w with
  | Initial => (Writer (w_sink w) (map_insert k v (w_headers w)) Initial, WOk tt)
  | Closed => (w, WErr EClosed)
  | _ => (w, WErr EStarted)
  end.

(** XMLWriter::close, src/xml/mod.rs:419-427; also run by Drop, 527-531 *)
Definition xml_close (w : writer) : writer * wres unit :=
  match xml_ensure_header w with
  | (w1, WOk _) =>
      match emit (nl ++ lit "</osm>") (w_sink w1) with
      | (s, WOk _) => (Writer s (w_headers w1) Closed, WOk tt)
      | (s, r) => (Writer s (w_headers w1) (w_state w1), r)
      end
  | (w1, r) => (w1, r)
  end.

(** XMLWriter::write_obj, src/xml/mod.rs:429-519 *)
Definition xml_write_obj (o : sobj) (w : writer) : writer * wres unit :=
  let body w1 :=
    match xml_write_body o (w_sink w1) with
    | (s, r) => (Writer s (w_headers w1) (w_state w1), r)
    end in
  match w_state w with
  | Initial =>
      match xml_ensure_header w with
      | (w1, WOk _) => body w1
      | (w1, r) => (w1, r)
      end
  | WritingObjects => body w
  | Closed => (w, WErr EClosed)
  end.

(** OSCWriter::ensure_header, src/osc/mod.rs:94-114 *)
Definition osc_ensure_header (w : writer) : writer * wres unit :=
  match w_state w with
  | Initial =>
      match
        (emit (lit "<?xml version=" ++ dq ++ lit "1.0" ++ dq ++ lit " encoding=" ++ dq
               ++ lit "utf-8" ++ dq ++ lit "?>" ++ nl);;
         emit (lit "<osmChange version=" ++ dq ++ lit "0.6" ++ dq ++ lit " generator=" ++ dq
               ++ lit "osmio/" ++ crate_version ++ dq);;
         emit (lit ">");;
         emit (nl ++ lit "<modify>")) (w_sink w)
      with
      | (s, WOk _) => (Writer s (w_headers w) WritingObjects, WOk tt)
      | (s, r) => (Writer s (w_headers w) Initial, r)
      end
  | _ => (w, WOk tt)
  end.

(** OSCWriter inherits set_header from the trait, src/lib.rs:732-734: todo!(). *)
Definition osc_set_header (k v : str) (w : writer) : writer * wres unit := (w, WPanic).

(** OSCWriter::close, src/osc/mod.rs:129-140; also run by Drop, 241-245 *)
Definition osc_close (w : writer) : writer * wres unit :=
  match osc_ensure_header w with
  | (w1, WOk _) =>
      match w_state w1 with
      | Closed => (w1, WOk tt)
      | _ =>
          match (emit (nl ++ lit "</modify>");; emit (nl ++ lit "</osmChange>")) (w_sink w1) with
          | (s, WOk _) => (Writer s (w_headers w1) Closed, WOk tt)
          | (s, r) => (Writer s (w_headers w1) (w_state w1), r)
          end
      end
  | (w1, r) => (w1, r)
  end.

(** OSCWriter::write_obj, src/osc/mod.rs:142-233 *)
Definition osc_write_obj (o : sobj) (w : writer) : writer * wres unit :=
  let body w1 :=
    match osc_write_body o (w_sink w1) with
    | (s, r) => (Writer s (w_headers w1) (w_state w1), r)
    end in
  match w_state w with
  | Initial =>
      match osc_ensure_header w with
      | (w1, WOk _) => body w1
      | (w1, r) => (w1, r)
      end
  | WritingObjects => body w
  | Closed => (w, WErr EClosed)
  end.

(** ** Call histories *)

(** A public call on a writer.  Drop is one more close whose error panics. *)
Inductive call := CSetHeader (k v : str) | CWrite (o : sobj) | CClose.

Definition xml_call (w : writer) (c : call) : writer * wres unit :=
  match c with
  | CSetHeader k v => xml_set_header k v w
  | CWrite o => xml_write_obj o w
  | CClose => xml_close w
  end.

Definition osc_call (w : writer) (c : call) : writer * wres unit :=
  match c with
  | CSetHeader k v => osc_set_header k v w
  | CWrite o => osc_write_obj o w
  | CClose => osc_close w
  end.

(** A sequence of calls; a caller that catches an error or a panic may go on
    using the writer, so the sequence goes on whatever a call returned. *)
Fixpoint run_calls (f : writer -> call -> writer * wres unit) (w : writer) (cs : list call)
  : writer * list (wres unit) :=
  match cs with
  | [] => (w, [])
  | c :: r =>
      let '(w1, x) := f w c in
      let '(w2, xs) := run_calls f w1 r in
      (w2, x :: xs)
  end.

(** OSMWriter::from_iter, src/lib.rs:735-751: new, write all with unwrap, close
    with unwrap. *)
Fixpoint from_iter_loop (f : writer -> call -> writer * wres unit) (w : writer) (os : list sobj)
  : writer * wres unit :=
  match os with
  | [] => match f w CClose with
          | (w1, WOk _) => (w1, WOk tt)
          | (w1, _) => (w1, WPanic)
          end
  | o :: r => match f w (CWrite o) with
              | (w1, WOk _) => from_iter_loop f w1 r
              | (w1, _) => (w1, WPanic)
              end
  end.
Definition from_iter (f : writer -> call -> writer * wres unit) (cap : option nat) (os : list sobj)
  : writer * wres unit := from_iter_loop f (new_writer cap) os.

End Writers.
