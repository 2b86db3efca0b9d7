(** * Model of src/record_reader.rs *)
From Coq Require Import List NArith Arith Bool.
From Verif Require Import Base ParseBuffer Buffer Codes Crypto KeySchedule Handshake Record Transport.
Import ListNotations.

(** record_reader.rs:11-17 [RecordReader] together with what [read] borrows: the
    transport's receive side and the read key schedule. *)
Record rdst := mk_rdst {
  rd_buf : bytes; rd_decoded : nat; rd_pending : nat;
  rd_rx : list rx_event; rd_ks : rks }.

(** record_reader.rs:28-37 [RecordReader::new]. *)
Definition rd_new (buf : bytes) (rx : list rx_event) (k : rks) : rdst := mk_rdst buf 0 0 rx k.

(** Run a transport action inside the reader state. *)
Definition on_rx {E A} (m : M (list rx_event) E A) : M rdst E A :=
  fun s =>
    let '(o, rx) := m (rd_rx s) in
    (o, mk_rdst (rd_buf s) (rd_decoded s) (rd_pending s) rx (rd_ks s)).

(** [transport.read(..).map_err(|e| TlsError::Io(e.kind()))] followed by the check
    for 0 (record_reader.rs:150-156 and 190-196). *)
Definition rx_read_some (n : nat) : M (list rx_event) tls_error bytes :=
  got <- map_err Io (rx_read n) ;;
  if length got =? 0 then fail IoError else ret got.

(** record_reader.rs:149-158, the loop of [next_record_header]; [acc] is the filled
    part of the local 5-byte array. *)
Fixpoint header_loop (fuel : nat) (acc : bytes) : M (list rx_event) tls_error bytes :=
  if length acc =? HEADER_LEN then ret acc
  else
    match fuel with
    | O => lift Diverge
    | S f =>
        got <- rx_read_some (HEADER_LEN - length acc) ;;
        header_loop f (acc ++ got)
    end.

(** record_reader.rs:146-160 / 162-177 [next_record_header(_blocking)]. *)
Definition next_record_header : M (list rx_event) tls_error bytes :=
  h <- header_loop 6 [] ;; lift (hdr_decode h).

(** record_reader.rs:245-265 [ensure_contiguous]. *)
Definition ensure_contiguous (len : nat) : M rdst tls_error unit :=
  s <- get ;;
  if length (rd_buf s) <? rd_decoded s + len then
    if length (rd_buf s) <? len then fail InsufficientSpace
    else
      w <- lift (slice_rng (rd_buf s) (rd_decoded s) (rd_decoded s + rd_pending s)) ;;
      put (mk_rdst (splice (rd_buf s) 0 w) 0 (rd_pending s) (rd_rx s) (rd_ks s))
  else ret tt.

(** record_reader.rs:189-199 / 214-223, the loop of [advance(_blocking)]. *)
Fixpoint advance_loop (fuel amount remain : nat) : M rdst tls_error unit :=
  s <- get ;;
  if amount <=? rd_pending s then ret tt
  else
    match fuel with
    | O => lift Diverge
    | S f =>
        tail <- lift (slice_from (rd_buf s) (rd_decoded s + rd_pending s)) ;;
        dst <- lift (slice_rng tail 0 remain) ;;
        got <- on_rx (rx_read_some (length dst)) ;;
        remain' <- lift (usize_sub remain (length got)) ;;
        s' <- get ;;
        b <- lift (set_rng (rd_buf s') (rd_decoded s' + rd_pending s') got) ;;
        put (mk_rdst b (rd_decoded s') (rd_pending s' + length got) (rd_rx s') (rd_ks s')) ;;;
        advance_loop f amount remain'
    end.

(** record_reader.rs:179-202 / 204-226 [advance(_blocking)]. *)
Definition advance (amount : nat) : M rdst tls_error unit :=
  ensure_contiguous amount ;;;
  advance_loop (S amount) amount amount.

(** record_reader.rs:228-243 [consume]. *)
Definition consume_record (C : crypto) (h : bytes) : M rdst tls_error server_record :=
  n <- lift (hdr_content_length h) ;;
  s <- get ;;
  tail <- lift (slice_from (rd_buf s) (rd_decoded s)) ;;
  data <- lift (slice_rng tail 0 n) ;;
  p <- lift (usize_sub (rd_pending s) n) ;;
  put (mk_rdst (rd_buf s) (rd_decoded s + n) p (rd_rx s) (rd_ks s)) ;;;
  rt <- lift (sr_decode C h (rd_decoded s) data (r_transcript (rd_ks s))) ;;
  modify (fun t => mk_rdst (rd_buf t) (rd_decoded t) (rd_pending t) (rd_rx t)
                     (r_with_transcript (rd_ks t) (snd rt))) ;;;
  ret (fst rt).

(** record_reader.rs:108-125 / 127-144 [read(_blocking)]. *)
Definition rd_read (C : crypto) : M rdst tls_error server_record :=
  h <- on_rx next_record_header ;;
  n <- lift (hdr_content_length h) ;;
  advance n ;;;
  consume_record C h.
