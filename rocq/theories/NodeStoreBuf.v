(** The node store's writer with its buffer: src/nodestore.rs:18-45.  The file is changed only
    when the BufWriter passes bytes on: before every seek, when its buffer is full and when it is
    dropped.  Here it may pass on any number of bytes at any time, which covers every capacity
    (the source has 1_000_000_000) and every way in which the system splits a write.  I/O does
    not fail. *)
From Coq Require Import ZArith List Bool Lia.
From Verif Require Import Base NodeStore.
Import ListNotations.
Open Scope Z_scope.

(** What [set] does to the BufWriter. *)
Inductive fop := SeekEnd | SeekStart (p : nat) | Put (d : bytes).
(** set, src/nodestore.rs:27-44 *)
Definition set_ops (max : Z) (c : Z * (Z * Z)) : list fop :=
  let '(id, (lat, lon)) := c in
  (if max <? id then
     SeekEnd :: concat (repeat [Put (be32 sentinel); Put (be32 sentinel)] (Z.to_nat (id - max)))
   else [])
  ++ [SeekStart (Z.to_nat (id * 8)); Put (be32 lat); Put (be32 lon)].

(** The calls still to be made, what is left of the current one, max_node_id, the file, the
    position in it and the buffer. *)
Record wst := W { w_calls : list (Z * (Z * Z)); w_ops : list fop; w_max : Z; w_disk : bytes; w_pos : nat; w_buf : bytes }.

(** One step.  max_node_id is changed when the call begins: nothing looks at it before the
    next call. *)
Inductive wstep : wst -> wst -> Prop :=
| ws_call c cs m d p b : wstep (W (c :: cs) [] m d p b) (W cs (set_ops m c) (Z.max m (fst c)) d p b)
| ws_put x cs r m d p b : wstep (W cs (Put x :: r) m d p b) (W cs r m d p (b ++ x))
| ws_end cs r m d p : wstep (W cs (SeekEnd :: r) m d p []) (W cs r m d (length d) [])
| ws_start q cs r m d p : wstep (W cs (SeekStart q :: r) m d p []) (W cs r m d q [])
| ws_flush n cs r m d p b : (0 < n <= length b)%nat ->
    wstep (W cs r m d p b) (W cs r m (write_at p (firstn n b) d) (p + n) (skipn n b)).

(** The states in which a program that makes these calls on a new store can be. *)
Inductive wreach (hist : list (Z * (Z * Z))) : wst -> Prop :=
| wr_create : wreach hist (W hist [] 0 [] 0 [])
| wr_step s s' : wreach hist s -> wstep s s' -> wreach hist s'.
