(** * Model of src/parse_buffer.rs *)
From Coq Require Import List NArith Arith Bool.
From Verif Require Import Base.
Import ListNotations.

(** parse_buffer.rs:12-15 [ParseBuffer]. *)
Record pbuf := mk_pbuf { pb_pos : nat; pb_buf : bytes }.

(** Parsers: [fn(&mut ParseBuffer) -> Result<A, E>]. *)
Notation P E A := (M pbuf E A).

(** parse_buffer.rs:30-32 [new]. *)
Definition pb_new (b : bytes) : pbuf := mk_pbuf 0 b.

(** parse_buffer.rs:34-36 [is_empty]. *)
Definition pb_is_empty (p : pbuf) : bool := pb_pos p =? length (pb_buf p).

(** parse_buffer.rs:38-40 [remaining] (subtraction underflow panics). *)
Definition pb_remaining {E} (p : pbuf) : outcome E nat := usize_sub (length (pb_buf p)) (pb_pos p).

(** parse_buffer.rs:42-44 [offset] and 46-48 [as_slice]. *)
Definition pb_offset (p : pbuf) : nat := pb_pos p.
Definition pb_as_slice (p : pbuf) : bytes := pb_buf p.

(** [&self.buffer[self.pos..self.pos + n]; self.pos += n] under the length guard
    that every reader below uses. *)
Definition pb_take (n : nat) : P parse_error bytes :=
  fun p =>
    if pb_pos p + n <=? length (pb_buf p) then
      match slice_rng (pb_buf p) (pb_pos p) (pb_pos p + n) with
      | Ok s => (Ok s, mk_pbuf (pb_pos p + n) (pb_buf p))
      | Err e => (Err e, p)
      | Panic x => (Panic x, p)
      | Diverge => (Diverge, p)
      | Cancelled => (Cancelled, p)
      end
    else (Err PE_InsufficientBytes, p).

(** parse_buffer.rs:50-58 [slice]. *)
Definition pb_slice (n : nat) : P parse_error pbuf :=
  s <- pb_take n ;; ret (pb_new s).

(** parse_buffer.rs:60-68 [read_u8]. *)
Definition read_u8 : P parse_error byte :=
  fun p =>
    if pb_pos p <? length (pb_buf p) then
      match index (pb_buf p) (pb_pos p) with
      | Ok v => (Ok v, mk_pbuf (pb_pos p + 1) (pb_buf p))
      | Err e => (Err e, p)
      | Panic x => (Panic x, p)
      | Diverge => (Diverge, p)
      | Cancelled => (Cancelled, p)
      end
    else (Err PE_InsufficientBytes, p).

(** parse_buffer.rs:70-79 [read_u16], 81-94 [read_u24], 96-109 [read_u32]:
    the individual index expressions are the range [pos..pos+k]. *)
Definition read_u16 : P parse_error N := s <- pb_take 2 ;; ret (be_val s).
Definition read_u24 : P parse_error N := s <- pb_take 3 ;; ret (be_val s).
Definition read_u32 : P parse_error N := s <- pb_take 4 ;; ret (be_val s).

(** parse_buffer.rs:111-120 [fill]; the destination's contents are returned. *)
Definition pb_fill (dest_len : nat) : P parse_error bytes := pb_take dest_len.

(** parse_buffer.rs:122-148 [copy] into a fresh or partly filled [Vec<u8, N>]. *)
Definition pb_copy (cap : nat) (dest : bytes) (n : nat) : P parse_error bytes :=
  space <- lift (usize_sub cap (length dest)) ;;
  if space <? n then fail PE_InsufficientSpace
  else s <- pb_take n ;; ret (dest ++ s).

(** parse_buffer.rs:150-166 [read_list], loop part (158-163).  [fuel] bounds the
    number of iterations; the wrapper passes the data length plus one. *)
Fixpoint read_list_loop {T} (fuel cap : nat) (read : P parse_error T)
    (acc : list T) (d : pbuf) : outcome parse_error (list T) :=
  if pb_is_empty d then Ok acc
  else
    match fuel with
    | O => Diverge
    | S fuel' =>
        match read d with
        | (Ok t, d') =>
            if length acc <? cap then read_list_loop fuel' cap read (acc ++ [t]) d'
            else Err PE_InsufficientSpace
        | (Err e, _) => Err e
        | (Panic x, _) => Panic x
        | (Diverge, _) => Diverge
        | (Cancelled, _) => Cancelled
        end
    end.

(** parse_buffer.rs:150-166 [read_list::<T, cap>]. *)
Definition read_list {T} (cap : nat) (data_length : nat) (read : P parse_error T)
  : P parse_error (list T) :=
  d <- pb_slice data_length ;;
  lift (read_list_loop (S data_length) cap read [] d).

(** [?] from [ParseError] to [TlsError] (parse_buffer.rs:169-173). *)
Definition pq {A} (m : P parse_error A) : P tls_error A := map_err ParseErr m.

(** parse_buffer.rs:23-27: [Result<Vec<u8, N>, _>::from(ParseBuffer)]. *)
Definition pb_into_vec {E} (cap : nat) (p : pbuf) : outcome E (option bytes) :=
  s <-- slice_from (pb_buf p) (pb_pos p) ;;
  Ok (if length s <=? cap then Some s else None).
