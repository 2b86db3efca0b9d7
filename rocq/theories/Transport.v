(** * The transport (embedded_io / embedded_io_async), as an oracle

    The user's socket is outside the crate; the model quantifies over its behaviour. *)
From Coq Require Import List NArith Arith Bool.
From Verif Require Import Base.
Import ListNotations.

(** What successive [Read::read] calls meet.  A chunk is handed out over as many calls
    as needed; an empty chunk and the end of the list are end-of-file ([Ok(0)]).
    [RxCancel]: the future of the pending read is dropped (async only). *)
Inductive rx_event := RxData (b : bytes) | RxErr (k : io_kind) | RxCancel.

(** [transport.read(&mut buf[..n])]. *)
Definition rx_read (n : nat) : M (list rx_event) io_kind bytes :=
  fun rx =>
    match rx with
    | [] => (Ok [], [])
    | RxData b :: r =>
        let got := firstn n b in
        let rest := skipn n b in
        (Ok got, match rest with [] => r | _ => RxData rest :: r end)
    | RxErr k :: r => (Err k, r)
    | RxCancel :: r => (Cancelled, r)
    end.

(** Answers to successive [write_all] and [flush] calls; an exhausted list means success.
    [WrErr n k]: [n] bytes reached the wire before the error; [WrCancel n]: the future
    was dropped after [n] bytes. *)
Inductive wr_answer := WrOk | WrErr (n : nat) (k : io_kind) | WrCancel (n : nat).
Inductive fl_answer := FlOk | FlErr (k : io_kind) | FlCancel.

(** What the transport saw: the bytes put on the wire by one [write_all] of [bs] (all
    of them, or a prefix), and completed flushes. *)
Inductive tx_event := TxWrite (requested : bytes) (sent : nat) | TxFlush.

Record txst := mk_txst { tx_wr : list wr_answer; tx_fl : list fl_answer; tx_log : list tx_event }.

(** [transport.write_all(bs)]. *)
Definition tx_write_all (bs : bytes) : M txst io_kind unit :=
  fun t =>
    match tx_wr t with
    | [] => (Ok tt, mk_txst [] (tx_fl t) (tx_log t ++ [TxWrite bs (length bs)]))
    | WrOk :: r => (Ok tt, mk_txst r (tx_fl t) (tx_log t ++ [TxWrite bs (length bs)]))
    | WrErr n k :: r =>
        (Err k, mk_txst r (tx_fl t) (tx_log t ++ [TxWrite bs (Nat.min n (length bs))]))
    | WrCancel n :: r =>
        (Cancelled, mk_txst r (tx_fl t) (tx_log t ++ [TxWrite bs (Nat.min n (length bs))]))
    end.

(** [transport.flush()]. *)
Definition tx_flush : M txst io_kind unit :=
  fun t =>
    match tx_fl t with
    | [] => (Ok tt, mk_txst (tx_wr t) [] (tx_log t ++ [TxFlush]))
    | FlOk :: r => (Ok tt, mk_txst (tx_wr t) r (tx_log t ++ [TxFlush]))
    | FlErr k :: r => (Err k, mk_txst (tx_wr t) r (tx_log t))
    | FlCancel :: r => (Cancelled, mk_txst (tx_wr t) r (tx_log t))
    end.

(** Bytes on the wire. *)
Definition ev_bytes (e : tx_event) : bytes :=
  match e with TxWrite b n => firstn n b | TxFlush => [] end.
Definition wire (l : list tx_event) : bytes := concat (map ev_bytes l).
