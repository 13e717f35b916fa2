(** Node chains: src/nodechain.rs.  The module is in the source tree but not part
    of the crate (src/lib.rs has no "mod nodechain"), and would no longer compile:
    it takes ObjId to be u64, as it once was, and compares an i8 with the literal
    0b1000_0001, which is out of range for the type; it is read as the i8 with
    those bits, -127. *)
From Coq Require Import ZArith List Bool Lia.
From Coq Require Import ZifyBool ZifyNat.
From Verif Require Import Base.
Import ListNotations.
Open Scope Z_scope.

(** [write_u64::<BigEndian>]. *)
Definition be64 (v : Z) : bytes :=
  [v / 2^56; v / 2^48 mod 256; v / 2^40 mod 256; v / 2^32 mod 256;
   v / 2^24 mod 256; v / 2^16 mod 256; v / 2^8 mod 256; v mod 256].
(** [read_u64::<BigEndian>]: the value and the rest; None on fewer than eight
    bytes. *)
Definition rd64 (b : bytes) : option (Z * bytes) :=
  match b with
  | a :: b :: c :: d :: e :: f :: g :: h :: r =>
      Some (((((((a * 256 + b) * 256 + c) * 256 + d) * 256 + e) * 256 + f) * 256 + g) * 256 + h, r)
  | _ => None
  end.
(** [as i8]. *)
Definition as_i8 (b : Z) : Z := (b + 128) mod 256 - 128.

Section Chain.
Variable chk : profile.

(** The loop of encode_nodes_to_bytes, src/nodechain.rs:17-38 *)
Fixpoint enc_loop (first last : Z) (l : list Z) : outcome bytes :=
  match l with
  | [] => Ret []
  | n :: r =>
      do offset <- arith_i64 chk (as_i64 n - as_i64 last);
      do rest <- enc_loop first n r;
      Ret ((if n =? first then [129]
            else if offset =? 0 then [0]
            else if (-126 <? offset) && (offset <? 125) then [offset mod 256]
            else 255 :: be64 n) ++ rest)
  end.
(** encode_nodes_to_bytes, src/nodechain.rs:10-44 *)
Definition enc_chain (l : list Z) : outcome bytes :=
  match l with
  | [] => Ret []
  | first :: r => do b <- enc_loop first first r; Ret (be64 first ++ b)
  end.

(** The loop of decode_bytes_to_nodes, src/nodechain.rs:53-78.  Each turn
    consumes a byte, so the number of bytes bounds the number of turns. *)
Fixpoint dec_loop (fuel : nat) (first last : Z) (b : bytes) : outcome (list Z) :=
  match fuel with
  | O => Ret []
  | S f =>
      match b with
      | [] => Ret []
      | x :: r =>
          let num := as_i8 x in
          if num =? -127 then do l <- dec_loop f first last r; Ret (first :: l)
          else if x =? 255 then
            do (next, r') <- unwrap (rd64 r);
            do l <- dec_loop f first next r'; Ret (next :: l)
          else if num =? 0 then do l <- dec_loop f first last r; Ret (last :: l)
          else
            do s <- arith_i64 chk (as_i64 last + num);
            do l <- dec_loop f first (as_u64 s) r; Ret (as_u64 s :: l)
      end
  end.
(** decode_bytes_to_nodes, src/nodechain.rs:46-84 *)
Definition dec_chain (b : bytes) : outcome (list Z) :=
  match b with
  | [] => Ret []
  | _ => do (first, r) <- unwrap (rd64 b); do l <- dec_loop (length r) first first r; Ret (first :: l)
  end.

(** NodeChain::new(nodes).nodes(), src/nodechain.rs:86-94 *)
Definition chain_round (l : list Z) : outcome (list Z) := do b <- enc_chain l; dec_chain b.

End Chain.
