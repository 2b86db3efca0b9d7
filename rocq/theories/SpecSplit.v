(** * Specification vocabulary for split connections: one call after the other *)
From Coq Require Import List NArith Arith Bool.
From Verif Require Import Base Crypto WriteBuffer RecordReader ReadBuffer Connection Api Split.
Import ListNotations.

(** The calls of the halves are calls of the connection. *)
Definition r_op (q : rcall) : op :=
  match q with RRead d => OpRead d | RFill => OpFillBuf | RConsume n => OpConsume n | RWith l f => OpReadBuffered l f end.
Definition w_op (q : wcall) : op := match q with WWrite b => OpWrite b | WFlush => OpFlush end.

(** [one_by_one C c h c']: on the connection [c], the calls [h] one after the other gave the
    results in [h] and left [c']. *)
Inductive one_by_one (C : crypto) : conn -> list (op * outcome tls_error value) -> conn -> Prop :=
| obo_nil c : one_by_one C c [] c
| obo_cons c o r c1 h c' : step C o c = (r, c1) -> one_by_one C c1 h c' -> one_by_one C c ((o, r) :: h) c'.

(** [merge xs ys zs]: the elements of [xs] and of [ys], each in their order, make up [zs]. *)
Inductive merge {A} : list A -> list A -> list A -> Prop :=
| mg_nil : merge [] [] []
| mg_left x xs ys zs : merge xs ys zs -> merge (x :: xs) ys (x :: zs)
| mg_right y xs ys zs : merge xs ys zs -> merge xs (y :: ys) (y :: zs).

Definition r_results (t : thread rcall rlocal) := map (fun p => (r_op (fst p), snd p)) (t_log t).
Definition w_results (t : thread wcall whalf) := map (fun p => (w_op (fst p), snd p)) (t_log t).

(** The connection with the flag down. *)
Definition shut (c : conn) : conn := mk_conn (cn_rd c) (cn_dec c) (cn_wh c) (cn_shared c) false.
