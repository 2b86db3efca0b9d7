(** * Specification: what it means to append to the outgoing buffer *)
From Coq Require Import List NArith Arith.
From Verif Require Import Base Buffer SpecWire.
Import ListNotations.

(** The caller's slice is [before ++ window ++ after]: the bytes before the window, the
    bytes written so far, and the free space. *)
Definition before (c : cbuf) : bytes := firstn (cb_off c) (cb_buf c).
Definition window (c : cbuf) : bytes := firstn (cb_len c) (skipn (cb_off c) (cb_buf c)).
Definition after (c : cbuf) : bytes := skipn (cb_off c + cb_len c) (cb_buf c).

Definition in_bounds (c : cbuf) : Prop := cb_off c + cb_len c <= length (cb_buf c).

(** [c'] is [c] with exactly [bs] appended; nothing else of the slice has changed. *)
Definition appended (c c' : cbuf) (bs : bytes) : Prop :=
  cb_off c' = cb_off c /\ length (cb_buf c') = length (cb_buf c) /\ in_bounds c' /\
  before c' = before c /\ window c' = window c ++ bs /\ after c' = skipn (length bs) (after c).

(** Single writes and what they put in the buffer. *)
Inductive write1 :=
| WPush (b : byte) | WBytes (bs : bytes) | WU16 (n : N) | WU24 (n : N) | WU32 (n : N).

Definition image1 (w : write1) : bytes :=
  match w with
  | WPush b => [b]
  | WBytes bs => bs
  | WU16 n => uint 2 n
  | WU24 n => uint 3 n
  | WU32 n => uint 4 n
  end.

(** Whole writers: sequences and length-prefixed items, nested at will. *)
Inductive writer :=
| WSkip
| WOne (w : write1)
| WSeq (a b : writer)
| WLen8 (body : writer)
| WLen16 (body : writer)
| WLen24 (body : writer).

(** The bytes of a writer: a length prefix counts modulo its width. *)
Fixpoint image (w : writer) : bytes :=
  match w with
  | WSkip => []
  | WOne w => image1 w
  | WSeq a b => image a ++ image b
  | WLen8 b => vec 1 (image b)
  | WLen16 b => vec 2 (image b)
  | WLen24 b => vec 3 (image b)
  end.

(** First come, first served: which writes of a list are stored when there is room for
    [room] bytes and the caller carries on after a refusal. *)
Fixpoint served (room : nat) (l : list write1) : list write1 :=
  match l with
  | [] => []
  | w :: r =>
      if length (image1 w) <=? room then w :: served (room - length (image1 w)) r
      else served room r
  end.
