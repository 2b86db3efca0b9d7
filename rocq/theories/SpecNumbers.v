(** * C10, C41: the numbers of the records handed to the transport, and how the transport answers *)
From Coq Require Import List NArith Arith.
From Coq.Strings Require Import Byte.
From Verif Require Import Base Crypto KeySchedule Transport Connection Api SpecWire SpecKeys SpecRecord SpecSend.
Import ListNotations.

(** How the transport will answer the [i]-th [write_all] from now on. *)
Definition answer (c : conn) (i : nat) : wr_answer := nth i (tx_wr (wh_tx (cn_wh c))) WrOk.

(** It takes all of the record and says so. *)
Definition took (a : wr_answer) : bool := match a with WrOk => true | _ => false end.

(** How many of the bytes [b] it puts on the wire. *)
Definition reach (a : wr_answer) (b : bytes) : nat :=
  match a with WrOk => length b | WrErr n _ | WrCancel n => Nat.min n (length b) end.

(** What was handed to [write_all], without the flushes. *)
Definition writes (hs : list handed) : list handed := filter (fun h => match h with H_flush => false | _ => true end) hs.

(** How many of the next [i] [write_all] calls succeed. *)
Definition successes (c : conn) (i : nat) : nat := length (filter took (map (answer c) (seq 0 i))).

(** The number of the next record to be sent. *)
Definition next_number (c : conn) : N := k_counter (w_state (wh_ks (cn_wh c))).
