(** The quick-xml crate (Cargo.toml:20) on bytes: what
    quick_xml::Reader::from_reader(BufReader::new(reader)) with its default
    configuration yields in src/changesets.rs:86-97, 331-337, and
    Attribute::normalized_value.  quick-xml is not part of the repository; this
    is the behaviour it is trusted to have.  Simplifications: DOCTYPE is an
    error; a markup that starts with "<!" and is neither a comment nor CDATA is
    an error at its first wrong byte; a text event is shown only if there is
    some text. *)
From Coq Require Import String ZArith List Bool Lia.
From Verif Require Import Base Utf8 XmlToken Changesets.
Import ListNotations.
Open Scope Z_scope.

(** ** Attributes *)

Fixpoint drop_ws (l : bytes) : bytes :=
  match l with
  | [] => []
  | b :: r => if ws b then drop_ws r else l
  end.

(** What comes before the first byte with the property, and the rest from it on. *)
Fixpoint split_at (p : Z -> bool) (l : bytes) : bytes * bytes :=
  match l with
  | [] => ([], [])
  | b :: r => if p b then ([], l) else let '(x, y) := split_at p r in (b :: x, y)
  end.

Definition is_quote (b : Z) : bool := (b =? 34) || (b =? 39).
Definition is_in (k : bytes) (l : list bytes) : bool := existsb (str_eqb k) l.

(** BytesStart::attributes(): name, '=', quoted value, with white space anywhere
    between; the first byte of a name may be anything; a name that has been seen
    is an error.  The readers stop at the first error. *)
Fixpoint q_attrs (fuel : nat) (seen : list bytes) (l : bytes) : list qattr :=
  match fuel with
  | O => []
  | S f =>
      match drop_ws l with
      | [] => []
      | c :: l1 =>
          let '(k, l2) := split_at (fun b => (b =? 61) || ws b) l1 in
          let key := c :: k in
          match drop_ws l2 with
          | e :: l3 =>
              if negb (e =? 61) then [AErr]
              else if is_in key seen then [AErr]
              else
                match drop_ws l3 with
                | q :: l4 =>
                    if negb (is_quote q) then [AErr]
                    else
                      let '(v, l5) := split_at (fun b => b =? q) l4 in
                      match l5 with
                      | _ :: l6 => AOk key v :: q_attrs f (key :: seen) l6
                      | [] => [AErr]
                      end
                | [] => [AErr]
                end
          | [] => [AErr]
          end
      end
  end.

(** ** Markup *)

Inductive qmode :=
| QText (some : bool)
| QRef
| QLt
| QElem (quote : option Z) (buf : bytes)
| QPi (fresh q : bool)
| QBang (buf : bytes)
| QComment (dashes : nat)
| QCdata (brackets : nat)
| QDone.

(** Mode, names of the open elements (innermost first), items so far. *)
Record qst := Q { q_mode : qmode; q_stack : list bytes; q_out : list qitem }.

Definition q_go (p : qst) (m : qmode) (l : list qitem) : qst := Q m (q_stack p) (q_out p ++ l).

(** Name and attributes of the content of a tag. *)
Definition tag_parts (buf : bytes) : bytes * list qattr :=
  let '(n, r) := split_at ws buf in (n, q_attrs (length r) [] r).

(** The content without the white space at its end. *)
Fixpoint trim_end (l : bytes) : bytes :=
  match l with
  | [] => []
  | b :: r => match trim_end r with
              | [] => if ws b then [] else [b]
              | r' => b :: r'
              end
  end.

(** An end tag; one that does not fit is an error after which reading goes on. *)
Definition q_end (p : qst) (r : bytes) : qst :=
  let n := match trim_end r with [] => r | n => n end in
  match q_stack p with
  | m :: st => Q (QText false) st (q_out p ++ [if str_eqb n m then QEv (QEnd n) else QErr])
  | [] => q_go p (QText false) [QErr]
  end.

(** A start tag, or an empty element if the content ends with a slash. *)
Definition q_open (p : qst) (buf : bytes) : qst :=
  match rev buf with
  | c :: r =>
      if c =? 47 then let '(n, a) := tag_parts (rev r) in q_go p (QText false) [QEv (QEmpty n a)]
      else let '(n, a) := tag_parts buf in
           Q (QText false) (n :: q_stack p) (q_out p ++ [QEv (QStart n a)])
  | [] => Q (QText false) ([] :: q_stack p) (q_out p ++ [QEv (QStart [] [])])
  end.

(** The tag is complete. *)
Definition q_tag (p : qst) (buf : bytes) : qst :=
  match buf with
  | c :: r => if c =? 47 then q_end p r else q_open p buf
  | [] => q_open p buf
  end.

Definition q_flush (some : bool) : list qitem := if some then [QEv QOther] else [].

(** One byte.  An error of syntax is the last thing the reader returns before
    Eof. *)
Definition q_step (p : qst) (b : Z) : qst :=
  match q_mode p with
  | QText s =>
      if b =? 60 then q_go p QLt (q_flush s)
      else if b =? 38 then q_go p QRef (q_flush s)
      else q_go p (QText true) []
  | QRef =>
      if b =? 59 then q_go p (QText false) [QEv QOther]
      else if b =? 38 then q_go p QRef [QErr]
      else if b =? 60 then q_go p QLt [QErr]
      else q_go p QRef []
  | QLt =>
      if b =? 33 then q_go p (QBang []) []
      else if b =? 63 then q_go p (QPi true false) []
      else if b =? 62 then q_tag p []
      else q_go p (QElem (if is_quote b then Some b else None) [b]) []
  | QElem None buf =>
      if b =? 62 then q_tag p buf
      else q_go p (QElem (if is_quote b then Some b else None) (buf ++ [b])) []
  | QElem (Some q) buf => q_go p (QElem (if b =? q then None else Some q) (buf ++ [b])) []
  | QPi fresh q =>
      if b =? 62 then
        if fresh then q_go p QDone [QErr]
        else if q then q_go p (QText false) [QEv QOther]
        else q_go p (QPi false false) []
      else q_go p (QPi false (b =? 63)) []
  | QBang buf =>
      let buf' := buf ++ [b] in
      if str_eqb buf' (lit "--") then q_go p (QComment 0) []
      else if str_eqb buf' (lit "[CDATA[") then q_go p (QCdata 0) []
      else if is_prefix buf' (lit "--") || is_prefix buf' (lit "[CDATA[") then q_go p (QBang buf') []
      else q_go p QDone [QErr]
  | QComment d =>
      if b =? 45 then q_go p (QComment (Nat.min 2 (S d))) []
      else if (b =? 62) && Nat.eqb d 2 then q_go p (QText false) [QEv QOther]
      else q_go p (QComment 0) []
  | QCdata d =>
      if b =? 93 then q_go p (QCdata (Nat.min 2 (S d))) []
      else if (b =? 62) && Nat.eqb d 2 then q_go p (QText false) [QEv QOther]
      else q_go p (QCdata 0) []
  | QDone => p
  end.
Definition q_run (p : qst) (l : bytes) : qst := fold_left q_step l p.
Definition q_start : qst := Q (QText false) [] [].

(** What read_event_into returns for the bytes of a source that then ends.
    Elements that are still open are not an error. *)
Definition q_items (l : bytes) : list qitem :=
  let p := q_run q_start l in
  q_out p ++ match q_mode p with
             | QText s => q_flush s
             | QDone => []
             | _ => [QErr]
             end.

(** ... and for a source that fails with an I/O error after these bytes. *)
Definition q_items_io (l : bytes) : list qitem :=
  let p := q_run q_start l in
  q_out p ++ match q_mode p with QDone => [] | _ => [QErr] end.

(** ** Values *)

(** Attribute::normalized_value(XmlVersion::Implicit1_0): the value as text, each
    literal white space character (CR LF counting as one) a space, references
    resolved.  [ref]: the text since the last '&'; [cr]: the last character was
    a literal CR. *)
Fixpoint q_value (ref : option str) (cr : bool) (l : str) : option str :=
  match l with
  | [] => match ref with Some _ => None | None => Some [] end
  | c :: r =>
      match ref with
      | Some n =>
          if c =? 59 then
            match reference n with
            | Some x => opt_map (cons x) (q_value None false r)
            | None => None
            end
          else q_value (Some (n ++ [c])) false r
      | None =>
          if c =? 38 then q_value (Some []) false r
          else if (c =? 10) && cr then q_value None false r
          else opt_map (cons (if ws c then 32 else c)) (q_value None (c =? 13) r)
      end
  end.
Definition q_norm (raw : bytes) : option str :=
  match utf8_decode raw with Some s => q_value None false s | None => None end.
