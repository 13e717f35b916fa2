(** An XML pull parser: stands for the xml-rs crate (Cargo.toml:26) that
    XMLReader and OSCReader use (src/xml/mod.rs:19-23, 73-84,
    src/osc/mod.rs:12-16, 31-41).  xml-rs is not part of the repository; this is
    the XML 1.0 behaviour it is trusted to have, reading one character at a
    time.  Simplifications: no DOCTYPE (an error here), no namespaces (names
    with a colon are an error, xmlns is an ordinary attribute), names are
    ASCII letters, digits, '_', '-', '.' and any non-ASCII character; the
    contents of the XML declaration, of processing instructions and of comments
    are not checked; the input must be UTF-8. *)
From Coq Require Import String ZArith List Bool Lia.
From Verif Require Import Base Utf8.
Import ListNotations.
Open Scope Z_scope.

(** xml_rs::reader::XmlEvent: StartElement with its attributes, EndElement, and
    everything the readers do not look into (StartDocument, EndDocument,
    Characters, Whitespace, CData, Comment, ProcessingInstruction). *)
Inductive event :=
| EStart (name : str) (attrs : list (str * str))
| EEnd (name : str)
| EOther (text : str).

(** What the event iterator yields: Ok(event) or Err. *)
Inductive item := IEv (e : event) | IErr.

Definition ws (c : char) : bool := (c =? 32) || (c =? 9) || (c =? 10) || (c =? 13).

(** Char of XML 1.0. *)
Definition xml_char (c : char) : bool :=
  (c =? 9) || (c =? 10) || (c =? 13)
  || ((32 <=? c) && (c <=? 55295))
  || ((57344 <=? c) && (c <=? 65533))
  || ((65536 <=? c) && (c <=? 1114111)).

Definition name_start (c : char) : bool :=
  ((65 <=? c) && (c <=? 90)) || ((97 <=? c) && (c <=? 122)) || (c =? 95) || (128 <=? c).
Definition name_char (c : char) : bool :=
  name_start c || ((48 <=? c) && (c <=? 57)) || (c =? 45) || (c =? 46).

(** Digits of a character reference in the given base. *)
Definition digit_of (base : Z) (c : char) : option Z :=
  let v := if (48 <=? c) && (c <=? 57) then c - 48
           else if (97 <=? c) && (c <=? 102) then c - 87
           else if (65 <=? c) && (c <=? 70) then c - 55
           else 99 in
  if v <? base then Some v else None.
Fixpoint digits_of (base acc : Z) (s : str) : option Z :=
  match s with
  | [] => Some acc
  | c :: r => match digit_of base c with
              | Some d => digits_of base (acc * base + d) r
              | None => None
              end
  end.

(** The character a reference (the text between '&' and ';') stands for. *)
Definition reference (r : str) : option char :=
  if str_eqb r (lit "lt") then Some 60
  else if str_eqb r (lit "gt") then Some 62
  else if str_eqb r (lit "amp") then Some 38
  else if str_eqb r (lit "quot") then Some 34
  else if str_eqb r (lit "apos") then Some 39
  else
    match (match r with
           | 35 :: 120 :: (_ :: _) as ds => digits_of 16 0 (skipn 2 r)
           | 35 :: (_ :: _) as ds => digits_of 10 0 (skipn 1 r)
           | _ => None
           end) with
    | Some c => if xml_char c then Some c else None
    | None => None
    end.

(** Where the parser is. *)
Inductive mode :=
| MText (buf : str)
| MTextRef (buf ref : str)
| MLt
| MBang (buf : str)
| MComment (dashes : nat)
| MCdata (brackets : nat)
| MPI (q : bool)
| MOpenName (n : str)
| MInTag (n : str) (l : list (str * str)) (sp : bool)
| MAttrName (n : str) (l : list (str * str)) (a : str)
| MAttrEq (n : str) (l : list (str * str)) (a : str)
| MBeforeVal (n : str) (l : list (str * str)) (a : str)
| MVal (n : str) (l : list (str * str)) (a : str) (q : char) (v : str)
| MValRef (n : str) (l : list (str * str)) (a : str) (q : char) (v ref : str)
| MSlash (n : str) (l : list (str * str))
| MCloseStart
| MCloseName (n : str)
| MCloseWs (n : str)
| MErr.

(** Parser state: mode, open elements (innermost first), whether the root
    element has been seen, events so far. *)
Record pst := P { p_mode : mode; p_stack : list str; p_rooted : bool; p_evs : list event }.

Definition has_attr (a : str) (l : list (str * str)) : bool := existsb (fun x => str_eqb (fst x) a) l.

Fixpoint is_prefix (a b : str) : bool :=
  match a, b with
  | [], _ => true
  | x :: a', y :: b' => (x =? y) && is_prefix a' b'
  | _, _ => false
  end.

(** The text read since the last markup, as an event if there is any. *)
Definition flush (buf : str) : list event := match buf with [] => [] | _ => [EOther buf] end.

Section Tokenizer.

(** What the parser makes of a white-space character inside an attribute value
    (XML normalises tab, CR and LF to a space; xml-rs may keep them). *)
Variable attr_ws : char -> char.

Definition goto (m : mode) (p : pst) : pst := P m (p_stack p) (p_rooted p) (p_evs p).

Definition open_element (n : str) (l : list (str * str)) (p : pst) : pst :=
  P (MText []) (n :: p_stack p) true (p_evs p ++ [EStart n l]).
Definition empty_element (n : str) (l : list (str * str)) (p : pst) : pst :=
  P (MText []) (p_stack p) true (p_evs p ++ [EStart n l; EEnd n]).
Definition close_element (n : str) (p : pst) : pst :=
  match p_stack p with
  | m :: r => if str_eqb m n then P (MText []) r (p_rooted p) (p_evs p ++ [EEnd n]) else goto MErr p
  | [] => goto MErr p
  end.

(** One character. *)
Definition tstep (p : pst) (c : char) : pst :=
  if negb (xml_char c) then goto MErr p else
  match p_mode p with
  | MErr => p
  | MText buf =>
      if c =? 60 then P MLt (p_stack p) (p_rooted p) (p_evs p ++ flush buf)
      else match p_stack p with
           | [] => if ws c then goto (MText (buf ++ [c])) p else goto MErr p
           | _ => if c =? 38 then goto (MTextRef buf []) p else goto (MText (buf ++ [c])) p
           end
  | MTextRef buf r =>
      if c =? 59 then
        match reference r with Some x => goto (MText (buf ++ [x])) p | None => goto MErr p end
      else goto (MTextRef buf (r ++ [c])) p
  | MLt =>
      if c =? 47 then goto MCloseStart p
      else if c =? 33 then goto (MBang []) p
      else if c =? 63 then goto (MPI false) p
      else if name_start c then
        match p_stack p, p_rooted p with
        | [], true => goto MErr p
        | _, _ => goto (MOpenName [c]) p
        end
      else goto MErr p
  | MBang buf =>
      let b := buf ++ [c] in
      if str_eqb b (lit "--") then goto (MComment 0) p
      else if str_eqb b (lit "[CDATA[") then
        match p_stack p with [] => goto MErr p | _ => goto (MCdata 0) p end
      else if is_prefix b (lit "--") || is_prefix b (lit "[CDATA[") then goto (MBang b) p
      else goto MErr p
  | MComment k =>
      if Nat.leb 2 k then (if c =? 62 then goto (MText []) p else goto MErr p)
      else if c =? 45 then goto (MComment (S k)) p
      else goto (MComment 0) p
  | MCdata k =>
      if c =? 93 then goto (MCdata (S k)) p
      else if (c =? 62) && Nat.leb 2 k then
        P (MText []) (p_stack p) (p_rooted p) (p_evs p ++ [EOther []])
      else goto (MCdata 0) p
  | MPI q =>
      if c =? 63 then goto (MPI true) p
      else if (c =? 62) && q then P (MText []) (p_stack p) (p_rooted p) (p_evs p ++ [EOther []])
      else goto (MPI false) p
  | MOpenName n =>
      if name_char c then goto (MOpenName (n ++ [c])) p
      else if ws c then goto (MInTag n [] true) p
      else if c =? 62 then open_element n [] p
      else if c =? 47 then goto (MSlash n []) p
      else goto MErr p
  | MInTag n l sp =>
      if ws c then goto (MInTag n l true) p
      else if c =? 62 then open_element n l p
      else if c =? 47 then goto (MSlash n l) p
      else if name_start c && sp then goto (MAttrName n l [c]) p
      else goto MErr p
  | MAttrName n l a =>
      if name_char c then goto (MAttrName n l (a ++ [c])) p
      else if c =? 61 then goto (MBeforeVal n l a) p
      else if ws c then goto (MAttrEq n l a) p
      else goto MErr p
  | MAttrEq n l a =>
      if ws c then p
      else if c =? 61 then goto (MBeforeVal n l a) p
      else goto MErr p
  | MBeforeVal n l a =>
      if ws c then p
      else if (c =? 34) || (c =? 39) then goto (MVal n l a c []) p
      else goto MErr p
  | MVal n l a q v =>
      if c =? q then
        if has_attr a l then goto MErr p else goto (MInTag n (l ++ [(a, v)]) false) p
      else if c =? 38 then goto (MValRef n l a q v []) p
      else if c =? 60 then goto MErr p
      else goto (MVal n l a q (v ++ [attr_ws c])) p
  | MValRef n l a q v r =>
      if c =? 59 then
        match reference r with
        | Some x => goto (MVal n l a q (v ++ [x])) p
        | None => goto MErr p
        end
      else goto (MValRef n l a q v (r ++ [c])) p
  | MSlash n l => if c =? 62 then empty_element n l p else goto MErr p
  | MCloseStart => if name_start c then goto (MCloseName [c]) p else goto MErr p
  | MCloseName n =>
      if name_char c then goto (MCloseName (n ++ [c])) p
      else if ws c then goto (MCloseWs n) p
      else if c =? 62 then close_element n p
      else goto MErr p
  | MCloseWs n =>
      if ws c then p
      else if c =? 62 then close_element n p
      else goto MErr p
  end.

Definition trun (p : pst) (s : str) : pst := fold_left tstep s p.

(** The parser before the first character; the first event is StartDocument. *)
Definition tstart : pst := P (MText []) [] false [EOther []].

(** At the end of the input the root element must have been seen and closed;
    then comes EndDocument. *)
Definition titems (p : pst) : list item :=
  match p_mode p, p_stack p, p_rooted p with
  | MText buf, [], true => map IEv (p_evs p ++ flush buf ++ [EOther []])
  | _, _, _ => map IEv (p_evs p) ++ [IErr]
  end.

(** The items the parser yields when its source fails (with an I/O error, or with
    bytes that are not UTF-8) after the bytes [b]: xml-rs decodes and parses one
    character at a time, so the events before the failure come first. *)
Definition cut_items (b : bytes) : list item :=
  map IEv (p_evs (trun tstart (utf8_upto b))) ++ [IErr].

(** The items the parser yields for a byte sequence. *)
Definition xml_items (b : bytes) : list item :=
  match utf8_decode b with
  | Some s => titems (trun tstart s)
  | None => cut_items b
  end.

End Tokenizer.
