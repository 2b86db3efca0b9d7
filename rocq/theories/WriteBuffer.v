(** * Model of src/write_buffer.rs and of [encrypt] (src/connection.rs:96-129) *)
From Coq Require Import List NArith Arith Bool.
From Coq.Strings Require Import Byte.
From Verif Require Import Base Buffer Codes Extensions Crypto KeySchedule Config Handshake Record.
Import ListNotations.

(** write_buffer.rs:10-14 [WriteBuffer]. *)
Record wbuf := mk_wbuf { wb_buf : bytes; wb_pos : nat; wb_hdr : option rec_header }.

(** write_buffer.rs:29-39 [WriteBuffer::new] (debug_assert!). *)
Definition wb_new (buf : bytes) : outcome tls_error wbuf :=
  if TLS_RECORD_OVERHEAD <? length buf then Ok (mk_wbuf buf 0 None) else Panic PAssert.

(** write_buffer.rs:113-115 [max_block_size]. *)
Definition wb_max_block (w : wbuf) : outcome tls_error nat :=
  usize_sub (length (wb_buf w)) TLS_RECORD_OVERHEAD.

(** write_buffer.rs:117-119 [is_full], 125-127 [is_empty], 129-131 [space]. *)
Definition wb_is_full (w : wbuf) : outcome tls_error bool :=
  m <-- wb_max_block w ;; Ok (wb_pos w =? m).
Definition wb_is_empty (w : wbuf) : bool := wb_pos w =? 0.
Definition wb_space (w : wbuf) : outcome tls_error nat :=
  m <-- wb_max_block w ;; usize_sub m (wb_pos w).

(** write_buffer.rs:133-135 [contains]. *)
Definition wb_contains (w : wbuf) (h : rec_header) : bool :=
  match wb_hdr w with Some x => rec_header_eqb x h | None => false end.

(** write_buffer.rs:159-166 [append]. *)
Definition wb_append (w : wbuf) (buf : bytes) : outcome tls_error (nat * wbuf) :=
  sp <-- wb_space w ;;
  let buffered := Nat.min (length buf) sp in
  if 0 <? buffered then
    b <-- set_rng (wb_buf w) (wb_pos w) (firstn buffered buf) ;;
    Ok (buffered, mk_wbuf b (wb_pos w + buffered) (wb_hdr w))
  else Ok (buffered, w).

(** write_buffer.rs:206-220 [with_buffer]: the closure's writes stay in the buffer in
    any case, [pos] follows only on success. *)
Definition with_buffer {A} (op : W A) : M wbuf tls_error A :=
  fun w =>
    let '(o, c) := op (cb_wrap_with_pos (wb_buf w) (wb_pos w)) in
    match o with
    | Ok a => (Ok a, mk_wbuf (cb_buf c) (cb_len c) (wb_hdr w))
    | Err e => (Err e, mk_wbuf (cb_buf c) (wb_pos w) (wb_hdr w))
    | Panic p => (Panic p, mk_wbuf (cb_buf c) (wb_pos w) (wb_hdr w))
    | Diverge => (Diverge, mk_wbuf (cb_buf c) (wb_pos w) (wb_hdr w))
    | Cancelled => (Cancelled, mk_wbuf (cb_buf c) (wb_pos w) (wb_hdr w))
    end.

Definition wb_set_hdr (h : option rec_header) : M wbuf tls_error unit :=
  modify (fun w => mk_wbuf (wb_buf w) (wb_pos w) h).

(** write_buffer.rs:188-204 [start_record]. *)
Definition wb_start_record (h : rec_header) : M wbuf tls_error unit :=
  w <- get ;;
  match wb_hdr w with
  | Some _ => panic PAssert      (* debug_assert!(current_header.is_none()) *)
  | None =>
      wb_set_hdr (Some h) ;;;
      with_buffer (rh_encode h ;;; cb_push_u16 0 ;;; cb_rewind)
  end.

(** connection.rs:96-129 [encrypt].  [AeadInPlace::encrypt_in_place] (crate aead)
    encrypts the contents in place and then extends the buffer by the tag. *)
Definition encrypt (C : crypto) (k : kstate) : W unit :=
  nonce <- lift (kstate_nonce C k) ;;
  c <- get ;;
  let len := cb_len c + tag_len C in
  if cb_capacity c <? len then fail InsufficientSpace
  else
    let ad := [b8 (content_type_code CT_ApplicationData); x03; x03] ++ be16 (N.of_nat len mod 65536) in
    pt <- lift (cb_as_slice c) ;;
    let '(ct, tag) := c_seal C (k_key k) nonce ad pt in
    b <- lift (set_rng (cb_buf c) (cb_off c) ct) ;;
    put (mk_cbuf b (cb_off c) (cb_len c)) ;;;
    map_err (fun _ => InvalidApplicationData) (cb_extend tag).

(** write_buffer.rs:222-257 [close_record]; returns the bytes to send. *)
Definition wb_close_record (C : crypto) (k : kstate) : M wbuf tls_error bytes :=
  w0 <- get ;;
  h <- lift (unwrap (wb_hdr w0)) ;;
  wb_set_hdr None ;;;
  with_buffer
    (if negb (rh_is_encrypted h) then ret tt
     else
       enc_err (cb_push (b8 (content_type_code (rh_trailer_content_type h)))) ;;;
       cb_offset HEADER_LEN ;;;
       encrypt C k ;;;
       cb_rewind) ;;;
  w <- get ;;
  n <- lift (usize_sub (wb_pos w) HEADER_LEN) ;;
  let l := be16 (N.of_nat n mod 65536) in
  b3 <- lift (set_index (wb_buf w) 3 (nth 0 l x00)) ;;
  b4 <- lift (set_index b3 4 (nth 1 l x00)) ;;
  s <- lift (slice_rng b4 0 (wb_pos w)) ;;
  put (mk_wbuf b4 0 None) ;;;
  ret s.

(** write_buffer.rs:279-283: [finish_record] on the payload in the (forwarded) buffer. *)
Definition wb_finish_payload (C : crypto) (r : client_record) (w : wks) (tr : bytes) : W bytes :=
  c <- get ;;
  payload <- lift (cb_as_slice c) ;;
  '(payload', tr') <- lift (cr_finish C r w payload tr) ;;
  b <- lift (set_rng (cb_buf c) (cb_off c) payload') ;;
  put (mk_cbuf b (cb_off c) (cb_len c)) ;;;
  ret tr'.

(** write_buffer.rs:259-287 [write_record] with [read_key_schedule = Some _] (as at
    every call site); returns the bytes to send and the new transcript.
    Simplified: on an error the transcript is reported unchanged; after such an error
    the transcript is only used again if the application calls [open] once more on the same
    object (C70, where it only matters that the transcript is not empty). *)
Definition wb_write_record (C : crypto) (r : client_record) (w : wks) (tr : bytes)
  : M wbuf tls_error (bytes * bytes) :=
  b <- get ;;
  match wb_hdr b with
  | Some _ => fail InternalError
  | None =>
      wb_start_record (cr_header r) ;;;
      tr' <- with_buffer
               (cb_forward ;;;
                cr_encode_payload C r ;;;
                tr' <- wb_finish_payload C r w tr ;;
                cb_rewind ;;;
                ret tr') ;;
      s <- wb_close_record C (w_state w) ;;
      ret (s, tr')
  end.
