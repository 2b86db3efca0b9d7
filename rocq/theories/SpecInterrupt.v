(** * C17: what it means that the transport fails, or a read is cancelled, at some point of the stream *)
From Coq Require Import List NArith Arith.
From Coq.Strings Require Import Byte.
From Verif Require Import Base Codes Crypto KeySchedule Record Transport RecordReader ReadBuffer Connection Api SpecRead.
Import ListNotations.

(** The transport reports an error, or the future of the read is dropped while it waits. *)
Definition fault (e : rx_event) : Prop := e = RxCancel \/ exists k, e = RxErr k.

(** How a call ends that meets the fault: with that error, or not at all. *)
Inductive struck {A} : rx_event -> outcome tls_error A -> Prop :=
| struck_error k : struck (RxErr k) (Err (Io k))
| struck_cancel : struck RxCancel Cancelled.

(** The bytes read into the buffer that no record has used yet. *)
Definition left_over (s : rdst) : bytes := sub (rd_buf s) (rd_decoded s) (rd_pending s).

(** Where the body of the next record goes: at the front, if it does not fit behind the last one. *)
Definition body_at (s : rdst) (n : nat) : nat :=
  if length (rd_buf s) <? rd_decoded s + n then 0 else rd_decoded s.
