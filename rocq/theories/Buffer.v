(** * Model of src/buffer.rs *)
From Coq Require Import List NArith Arith Bool.
From Coq.Strings Require Import Byte.
From Verif Require Import Base.
Import ListNotations.

(** buffer.rs:5-9 [CryptoBuffer]; [cb_buf] is the whole borrowed slice. *)
Record cbuf := mk_cbuf { cb_buf : bytes; cb_off : nat; cb_len : nat }.

(** Writers: [fn(&mut CryptoBuffer) -> Result<A, TlsError>]. *)
Notation W A := (M cbuf tls_error A).

(** buffer.rs:21-27 [wrap]; 29-35 [wrap_with_pos]. *)
Definition cb_wrap (b : bytes) : cbuf := mk_cbuf b 0 0.
Definition cb_wrap_with_pos (b : bytes) (pos : nat) : cbuf := mk_cbuf b 0 pos.

(** buffer.rs:145-147 [capacity]. *)
Definition cb_capacity (c : cbuf) : nat := length (cb_buf c).

(** buffer.rs:115-117 [space] (underflow panics). *)
Definition cb_space {E} (c : cbuf) : outcome E nat :=
  usize_sub (cb_capacity c) (cb_off c + cb_len c).

(** buffer.rs:99-113 [extend_internal] = 119-121 [extend_from_slice]. *)
Definition cb_extend (other : bytes) : W unit :=
  fun c =>
    match cb_space c with
    | Ok sp =>
        if sp <? length other then (Err InsufficientSpace, c)
        else
          match set_rng (cb_buf c) (cb_off c + cb_len c) other with
          | Ok b => (Ok tt, mk_cbuf b (cb_off c) (cb_len c + length other))
          | Err e => (Err e, c)
          | Panic x => (Panic x, c)
          | Diverge => (Diverge, c)
          | Cancelled => (Cancelled, c)
          end
    | Err e => (Err e, c)
    | Panic x => (Panic x, c)
    | Diverge => (Diverge, c)
    | Cancelled => (Cancelled, c)
    end.

(** buffer.rs:37-46 [push]. *)
Definition cb_push (v : byte) : W unit :=
  fun c =>
    match cb_space c with
    | Ok sp =>
        if 0 <? sp then
          match set_index (cb_buf c) (cb_off c + cb_len c) v with
          | Ok b => (Ok tt, mk_cbuf b (cb_off c) (cb_len c + 1))
          | Err e => (Err e, c)
          | Panic x => (Panic x, c)
          | Diverge => (Diverge, c)
          | Cancelled => (Cancelled, c)
          end
        else (Err InsufficientSpace, c)
    | Err e => (Err e, c)
    | Panic x => (Panic x, c)
    | Diverge => (Diverge, c)
    | Cancelled => (Cancelled, c)
    end.

(** buffer.rs:48-51 [push_u16], 53-56 [push_u24], 58-61 [push_u32]. *)
Definition cb_push_u16 (n : N) : W unit := cb_extend (be16 n).
Definition cb_push_u24 (n : N) : W unit := cb_extend (be24 n).
Definition cb_push_u32 (n : N) : W unit := cb_extend (be32 n).

(** buffer.rs:63-74 [set]. *)
Definition cb_set (idx : nat) (v : byte) : W unit :=
  fun c =>
    if idx <? cb_len c then
      match set_index (cb_buf c) (cb_off c + idx) v with
      | Ok b => (Ok tt, mk_cbuf b (cb_off c) (cb_len c))
      | Err e => (Err e, c)
      | Panic x => (Panic x, c)
      | Diverge => (Diverge, c)
      | Cancelled => (Cancelled, c)
      end
    else (Err InsufficientSpace, c).

(** buffer.rs:76-81 [set_u16]. *)
Definition cb_set_u16 (idx : nat) (n : N) : W unit :=
  cb_set idx (b8 (n / 256)) ;;; cb_set (idx + 1) (b8 n).

(** buffer.rs:83-89 [set_u24] (the top byte of the u32 is dropped). *)
Definition cb_set_u24 (idx : nat) (n : N) : W unit :=
  cb_set idx (b8 (n / 65536)) ;;; cb_set (idx + 1) (b8 (n / 256)) ;;; cb_set (idx + 2) (b8 n).

(** buffer.rs:95-97 [as_slice] (and 91-93 [as_mut_slice]). *)
Definition cb_as_slice {E} (c : cbuf) : outcome E bytes :=
  slice_rng (cb_buf c) (cb_off c) (cb_off c + cb_len c).

(** buffer.rs:123-131 [truncate]. *)
Definition cb_truncate (n : nat) : W unit :=
  fun c =>
    match usize_sub (cb_capacity c) (cb_off c) with
    | Ok room => (Ok tt, if n <=? room then mk_cbuf (cb_buf c) (cb_off c) n else c)
    | Err e => (Err e, c)
    | Panic x => (Panic x, c)
    | Diverge => (Diverge, c)
    | Cancelled => (Cancelled, c)
    end.

(** buffer.rs:158-169 [offset]; it consumes the buffer and returns it. *)
Definition cb_offset (off : nat) : W unit :=
  fun c =>
    match usize_sub (cb_len c + cb_off c) off with
    | Ok n => (Ok tt, mk_cbuf (cb_buf c) off n)
    | Err e => (Err e, c)
    | Panic x => (Panic x, c)
    | Diverge => (Diverge, c)
    | Cancelled => (Cancelled, c)
    end.

(** buffer.rs:149-152 [forward], 154-156 [rewind]. *)
Definition cb_forward : W unit := fun c => cb_offset (cb_len c) c.
Definition cb_rewind : W unit := cb_offset 0.

(** buffer.rs:171-185 [with_u8_length]. *)
Definition with_u8_length {R} (op : W R) : W R :=
  len_pos <- gets cb_len ;;
  cb_push x00 ;;;
  start <- gets cb_len ;;
  r <- op ;;
  len <- gets cb_len ;;
  d <- lift (usize_sub len start) ;;
  cb_set len_pos (b8 (N.of_nat d)) ;;;
  ret r.

(** buffer.rs:187-201 [with_u16_length]. *)
Definition with_u16_length {R} (op : W R) : W R :=
  len_pos <- gets cb_len ;;
  cb_push_u16 0 ;;;
  start <- gets cb_len ;;
  r <- op ;;
  len <- gets cb_len ;;
  d <- lift (usize_sub len start) ;;
  cb_set_u16 len_pos (N.of_nat d mod 65536) ;;;
  ret r.

(** buffer.rs:203-217 [with_u24_length] ([as u32], then the top byte is dropped). *)
Definition with_u24_length {R} (op : W R) : W R :=
  len_pos <- gets cb_len ;;
  cb_push_u24 0 ;;;
  start <- gets cb_len ;;
  r <- op ;;
  len <- gets cb_len ;;
  d <- lift (usize_sub len start) ;;
  cb_set_u24 len_pos (N.of_nat d mod 4294967296) ;;;
  ret r.

(** [for x in l { f(x)? }]. *)
Fixpoint for_each {S E T} (l : list T) (f : T -> M S E unit) : M S E unit :=
  match l with
  | [] => ret tt
  | x :: l' => f x ;;; for_each l' f
  end.
