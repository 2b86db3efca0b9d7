(** * Model of src/read_buffer.rs and src/common/decrypted_buffer_info.rs *)
From Coq Require Import List NArith Arith Bool.
From Verif Require Import Base.
Import ListNotations.

(** decrypted_buffer_info.rs:4-8 [DecryptedBufferInfo] (derived Default: zeros). *)
Record dec_info := mk_dec { d_offset : nat; d_len : nat; d_consumed : nat }.
Definition dec_default : dec_info := mk_dec 0 0 0.

(** decrypted_buffer_info.rs:17-19 [len], 21-23 [is_empty]. *)
Definition dec_remaining (d : dec_info) : outcome tls_error nat := usize_sub (d_len d) (d_consumed d).
Definition dec_is_empty (d : dec_info) : outcome tls_error bool :=
  n <-- dec_remaining d ;; Ok (n =? 0).

(** read_buffer.rs:3-9 [ReadBuffer], without the reference to [decrypted_consumed]. *)
Record rbuf := mk_rbuf { rb_data : bytes; rb_consumed : nat; rb_used : bool }.

(** read_buffer.rs:13-20 [new]. *)
Definition rb_new (data : bytes) : rbuf := mk_rbuf data 0 false.

(** decrypted_buffer_info.rs:11-15 [create_read_buffer]. *)
Definition create_read_buffer (d : dec_info) (buffer : bytes) : outcome tls_error rbuf :=
  s <-- slice_rng buffer (d_offset d + d_consumed d) (d_offset d + d_len d) ;;
  Ok (rb_new s).

(** read_buffer.rs:24-26 [len], 30-32 [is_empty]. *)
Definition rb_len (r : rbuf) : outcome tls_error nat := usize_sub (length (rb_data r)) (rb_consumed r).
Definition rb_is_empty (r : rbuf) : outcome tls_error bool := n <-- rb_len r ;; Ok (n =? 0).

(** read_buffer.rs:36-44 [peek]. *)
Definition rb_peek (count : nat) (r : rbuf) : outcome tls_error (bytes * rbuf) :=
  n <-- rb_len r ;;
  let c := Nat.min n count in
  s <-- slice_rng (rb_data r) (rb_consumed r) (rb_consumed r + c) ;;
  Ok (s, mk_rbuf (rb_data r) (rb_consumed r) true).

(** read_buffer.rs:48-50 [peek_all]. *)
Definition rb_peek_all (r : rbuf) : outcome tls_error (bytes * rbuf) :=
  n <-- rb_len r ;; rb_peek n r.

(** read_buffer.rs:54-61 [pop]. *)
Definition rb_pop (count : nat) (r : rbuf) : outcome tls_error (bytes * rbuf) :=
  n <-- rb_len r ;;
  let c := Nat.min n count in
  s <-- slice_rng (rb_data r) (rb_consumed r) (rb_consumed r + c) ;;
  Ok (s, mk_rbuf (rb_data r) (rb_consumed r + c) true).

(** read_buffer.rs:65-67 [pop_all]. *)
Definition rb_pop_all (r : rbuf) : outcome tls_error (bytes * rbuf) :=
  n <-- rb_len r ;; rb_pop n r.

(** read_buffer.rs:77-83 [pop_into] on a destination [buf]; returns the new contents of
    the destination and the count. *)
Definition rb_pop_into (buf : bytes) (r : rbuf) : outcome tls_error (bytes * nat * rbuf) :=
  p <-- rb_pop (length buf) r ;;
  b <-- set_rng buf 0 (fst p) ;;
  Ok (b, length (fst p), snd p).

(** read_buffer.rs:86-96 [Drop]: what is added to [decrypted_consumed]. *)
Definition rb_drop (r : rbuf) (d : dec_info) : dec_info :=
  mk_dec (d_offset d) (d_len d)
    (d_consumed d + if rb_used r then rb_consumed r else length (rb_data r)).

(** read_buffer.rs:71-73 [revert] = mem::forget: [decrypted_consumed] is not touched. *)
Definition rb_revert (r : rbuf) (d : dec_info) : dec_info := d.
