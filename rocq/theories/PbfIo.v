(** The PBF readers over a source that delivers its bytes in pieces and may fail:
    src/stringpbf/mod.rs, src/stringpbf/node_id_pos.rs, src/arcpbf/mod.rs.  PbfRead models
    the same functions over a source that delivers everything. *)
From Coq Require Import String ZArith List Bool Lia.
From Verif Require Import Base Utf8 Timestamp Obj PbWire PbMsg PbfRead.
Import ListNotations.
Open Scope Z_scope.

(** What successive calls of [Read::read] give: some bytes (none: end of file, at least
    for now), ErrorKind::Interrupted, or another error.  A call with a buffer shorter
    than the bytes at hand takes what fits.  After the last delivery every call gives the
    end of file. *)
Inductive delivery := DBytes (b : bytes) | DInterrupted | DError.
Definition source := list delivery.

(** [Read::read_exact] of the standard library (default_read_exact): repeat until the
    buffer is full; an interrupted call is repeated, no bytes or an error end it. *)
Fixpoint read_n (n : nat) (s : source) {struct s} : option bytes * source :=
  match n with
  | O => (Some [], s)
  | _ =>
      match s with
      | [] => (None, [])
      | DInterrupted :: r => read_n n r
      | DError :: r => (None, r)
      | DBytes [] :: r => (None, r)
      | DBytes b :: r =>
          if Nat.leb (length b) n then
            let '(o, s') := read_n (n - length b) r in (opt_map (app b) o, s')
          else (Some (firstn n b), DBytes (skipn n b) :: r)
      end
  end.

(** [read_u32::<BigEndian>()] of byteorder: read_exact of four bytes. *)
Definition io_read_u32 (s : source) : option Z * source :=
  match read_n 4 s with
  | (Some [a; b; c; d], r) => (Some (((a * 256 + b) * 256 + c) * 256 + d), r)
  | (_, r) => (None, r)
  end.
(** [vec![0; n as usize]] and [read_exact(..).unwrap()] *)
Definition io_read_exact (n : Z) (s : source) : outcome (bytes * source) :=
  if n <? 0 then Panic else
  match read_n (Z.to_nat n) s with
  | (Some b, r) => Ret (b, r)
  | (None, _) => Panic
  end.

(** The bytes a source can still deliver. *)
Definition piece (d : delivery) : bytes := match d with DBytes b => b | _ => [] end.
Definition remaining (s : source) : nat := length (flat_map piece s).

(** get_next_osmdata_blob, src/stringpbf/mod.rs:61-87 and src/arcpbf/mod.rs:56-81.  Each
    turn of the loop takes at least four bytes. *)
Fixpoint io_next_blob_fuel (rt : pbrt) (fuel : nat) (s : source) : outcome (option blob * source) :=
  match fuel with
  | O => Panic
  | S fuel' =>
      match io_read_u32 s with
      | (None, r) => Ret (None, r)
      | (Some size, r) =>
          do (hb, r) <- io_read_exact size r;
          do h <- unwrap (parse_header rt hb);
          do (bb, r) <- io_read_exact (unwrap_or (bh_datasize h) 0) r;
          do ty <- unwrap (bh_type h);
          if negb (str_eqb ty (lit "OSMData")) then io_next_blob_fuel rt fuel' r
          else do b <- unwrap (parse_blob rt bb); Ret (Some b, r)
      end
  end.
Definition io_next_blob (rt : pbrt) (s : source) : outcome (option blob * source) :=
  io_next_blob_fuel rt (S (remaining s)) s.

(** [while self.buffer.is_empty() { .. }], src/stringpbf/mod.rs:547-565,
    src/stringpbf/node_id_pos.rs:53-64, src/arcpbf/mod.rs:519-538 *)
Fixpoint io_refill {A} (rt : pbrt) (decode : blob -> outcome (list A)) (fuel : nat) (s : source)
    : outcome (option (list A) * source) :=
  match fuel with
  | O => Panic
  | S fuel' =>
      do (ob, r) <- io_next_blob rt s;
      match ob with
      | None => Ret (None, r)
      | Some b =>
          do l <- decode b;
          match l with
          | [] => io_refill rt decode fuel' r
          | _ => Ret (Some l, r)
          end
      end
  end.

(** next with a FIFO buffer: src/stringpbf/mod.rs:545-568, src/stringpbf/node_id_pos.rs:51-67.
    The object filter is fixed. *)
Definition io_next {A} (rt : pbrt) (decode : blob -> outcome (list A)) (s : source * list A)
    : outcome (option A * (source * list A)) :=
  match snd s with
  | a :: r => Ret (Some a, (fst s, r))
  | [] =>
      do (ol, src') <- io_refill rt decode (S (remaining (fst s))) (fst s);
      match ol with
      | None => Ret (None, (src', []))
      | Some [] => Ret (None, (src', []))
      | Some (a :: r) => Ret (Some a, (src', r))
      end
  end.
Definition io_s_next rt chk inflate flt := io_next rt (s_blob rt chk inflate flt).
Definition io_p_next rt chk inflate := io_next rt (p_blob rt chk inflate).
(** next with a reversed vector: src/arcpbf/mod.rs:518-541 *)
Definition io_a_next (rt : pbrt) (chk : build) (inflate : bytes -> option bytes) (s : source * list aobj)
    : outcome (option aobj * (source * list aobj)) :=
  let '(src, buf) := s in
  do (buf', src') <- (match buf with
                      | _ :: _ => Ret (buf, src)
                      | [] =>
                          do (ol, src') <- io_refill rt (fun b => do l <- a_blob rt chk inflate b; Ret (rev l))
                                                     (S (remaining src)) src;
                          Ret (unwrap_or ol [], src')
                      end);
  let '(o, rest) := pop buf' in Ret (o, (src', rest)).
