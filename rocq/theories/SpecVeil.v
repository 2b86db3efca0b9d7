(** * Specification vocabulary: what an observer of the transport may learn about the data *)
From Coq Require Import List NArith Arith Bool.
From Coq.Strings Require Import Byte.
From Verif Require Import Base Crypto Transport Api SpecWire SpecRecord.
Import ListNotations.

(** The same call; if it writes, as many bytes, but not the same ones. *)
Inductive same_shape : op -> op -> Prop :=
| sh_write b1 b2 : length b1 = length b2 -> same_shape (OpWrite b1) (OpWrite b2)
| sh_other o : same_shape o o.

(** The same call on the transport but for what the AEAD hides: where one hands over the record
    number [n] with the content [m1], protected under the key, the other hands over the record with
    the same number and a content [m2] of the same length. *)
Inductive veiled (C : crypto) (key iv : bytes) : tx_event -> tx_event -> Prop :=
| ve_same e : veiled C key iv e e
| ve_record n m1 m2 k : length m1 = length m2 ->
    veiled C key iv (TxWrite (rfc_record C key iv n ty_data m1 0) k) (TxWrite (rfc_record C key iv n ty_data m2 0) k).

(** What is visible of a call on the transport without the key: the header and the length of the record, and how
    much of it was taken. *)
Inductive sight := S_write (header : bytes) (size taken : nat) | S_flush.
Definition visible (e : tx_event) : sight :=
  match e with TxWrite b k => S_write (firstn 5 b) (length b) k | TxFlush => S_flush end.
