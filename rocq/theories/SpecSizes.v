(** * Specification: record sizes (RFC 8446 sections 5.1 and 5.2) and what the documentation of [new] says of the buffers
    (blocking.rs:47-56, asynch.rs:47-56) *)
From Coq Require Import String List NArith Arith Bool.
From Coq.Strings Require Import Byte.
From Verif Require Import Base ParseBuffer Codes Crypto KeySchedule Config Handshake Record Connection Transport Api SpecWire SpecCodes SpecMessages SpecKeys SpecRecord
  SpecSend SpecRead SpecHandshake SpecComplete.
Import ListNotations.
Local Open Scope list_scope.

(** RFC 8446 section 5.2: the encoded TLSInnerPlaintext of a record (content, type byte, padding) is at most
    2^14 + 1 bytes; section 5.1: a fragment in the clear is at most 2^14. *)
Definition legal_inner (content : bytes) (pad : nat) : Prop := (N.of_nat (length content + 1 + pad) <= 16384 + 1)%N.
Definition legal_clear (fragment : bytes) : Prop := (N.of_nat (length fragment) <= 16384)%N.

(** A record a server may send on an open connection: data, or session tickets, of legal size. *)
Definition legal_record (r : sent_record) : Prop :=
  let '((t, c), pad) := r in
  (t = ty_data \/ t = ty_handshake /\ exists ms, c = concat ms /\ Forall is_nst ms) /\ legal_inner c pad.

(** The records of a handshake have legal sizes. *)
Definition legal_flight (x : exchange) (l : list part) : Prop :=
  legal_clear (x_shello x) /\ Forall (fun q => match q with P_ccs => True | P_messages ms pad => legal_inner (raw ms) pad end) l.

(** "The maximum allowed value for a TLS record is 16640 bytes, which should be a safe value to use." *)
Definition documented_size : N := 16640.

(** The bytes of a protected record after its header. *)
Definition fragment_size (C : crypto) (content : bytes) (pad : nat) : nat := length content + 1 + pad + tag_len C.
