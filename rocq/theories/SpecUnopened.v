(** * Specification vocabulary: closing a connection that [open] did not open *)
From Coq Require Import List NArith.
From Coq.Strings Require Import Byte.
From Verif Require Import Base Codes Crypto Transport SpecWire SpecRecord.
Import ListNotations.
Local Open Scope list_scope.

(** The errors that tell that a message had no room in the write buffer. *)
Definition lacks_room (e : tls_error) : Prop :=
  e = InsufficientSpace \/ e = EncodeError \/ e = InvalidApplicationData.

(** The close_notify as it is sent without keys (with a record type that is not that of an alert, C19). *)
Definition clear_goodbye : bytes := [x14; x03; x01; x00; x02; x01; x00].

(** The first bytes of a record that holds nothing: the header of the ClientHello, with length 0. *)
Definition empty_handshake_record : bytes := [x16; x03; x01; x00; x00].

(** [open] says that it was interrupted, or it gives an error that does not tell of missing room. *)
Definition failed_elsewhere (o : outcome tls_error unit) : Prop :=
  o = Cancelled \/ exists e, o = Err e /\ ~ lacks_room e.

(** A record of the handshake without content, in the clear or protected. *)
Definition empty_record (C : crypto) (key iv : bytes) (n : N) (b : bytes) : Prop :=
  b = empty_handshake_record \/ b = rfc_record C key iv n ty_handshake [] 0.
