(** * Specification: no call waits for more than it needs *)
From Coq Require Import List NArith Arith Bool.
From Coq.Strings Require Import Byte.
From Verif Require Import Base Crypto KeySchedule Config Transport RecordReader Connection Api SpecOpen SpecChunk.
Import ListNotations.

(** The same connection, to which the transport brings [more] - bytes, failures, cancellations - after what it brought anyway.
    A call that on [c] does not meet the end of the transport and is the same on [later more c], with all of [more] still to
    come, has never asked for anything behind: had the peer been silent there, the call would have returned all the same. *)
Definition later (more : list rx_event) (c : conn) : conn := with_rx (rd_rx (cn_rd c) ++ more) c.

(** The call met the end of the transport: what had come by then was not enough for it.  On a transport on which more may
    come, this is where it waits. *)
Definition starved (a : answer) : Prop := a = A_open (Err IoError) \/ a = A_op (Err IoError).

(** Everything that was given to the transport has been flushed since. *)
Definition all_flushed (l : list tx_event) : Prop := forall l1 b n l2, l = l1 ++ TxWrite b n :: l2 -> In TxFlush l2.
