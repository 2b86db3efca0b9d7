(** * Specification: wire images of the server's handshake messages (RFC 8446 section 4)

    Independent of the model's parsers: plain concatenations of fields. *)
From Coq Require Import List NArith Arith.
From Verif Require Import Base SpecWire SpecCodes.
Import ListNotations.

(** An extension on the wire: its 16-bit type code and its body (section 4.2). *)
Definition ext_item : Type := N * bytes.
Definition item_ok (i : ext_item) : Prop := (fst i < 65536)%N /\ fits 2 (snd i).

Definition item_wire (i : ext_item) : bytes := uint 2 (fst i) ++ vec 2 (snd i).
Definition items_wire (l : list ext_item) : bytes := concat (map item_wire l).
Definition ext_block (l : list ext_item) : bytes := vec 2 (items_wire l).

(** A block of extensions that can be put on the wire. *)
Definition block_ok (l : list ext_item) : Prop := Forall item_ok l /\ fits 2 (items_wire l).

(** The server messages that carry extensions, with the fields around the block. *)
Inductive frame :=
| F_ServerHello (version : N) (random session_id : bytes) (suite compression : N)
| F_EncryptedExtensions
| F_CertificateRequest (context : bytes)
| F_Certificate (context cert : bytes)
| F_NewSessionTicket (lifetime age_add : N) (nonce ticket : bytes).

Definition frame_message (f : frame) : server_message :=
  match f with
  | F_ServerHello _ _ _ _ _ => InServerHello
  | F_EncryptedExtensions => InEncryptedExtensions
  | F_CertificateRequest _ => InCertificateRequest
  | F_Certificate _ _ => InCertificate
  | F_NewSessionTicket _ _ _ _ => InNewSessionTicket
  end.

Definition frame_type (f : frame) : N :=
  match f with
  | F_ServerHello _ _ _ _ _ => 2
  | F_EncryptedExtensions => 8
  | F_CertificateRequest _ => 13
  | F_Certificate _ _ => 11
  | F_NewSessionTicket _ _ _ _ => 4
  end%N.

(** Sections 4.1.3, 4.3.1, 4.3.2, 4.4.2 (one certificate entry), 4.6.1. *)
Definition frame_body (f : frame) (block : bytes) : bytes :=
  match f with
  | F_ServerHello version random session_id suite compression =>
      uint 2 version ++ random ++ vec 1 session_id ++ uint 2 suite ++ uint 1 compression ++ block
  | F_EncryptedExtensions => block
  | F_CertificateRequest context => vec 1 context ++ block
  | F_Certificate context cert => vec 1 context ++ vec 3 (vec 3 cert ++ block)
  | F_NewSessionTicket lifetime age_add nonce ticket =>
      uint 4 lifetime ++ uint 4 age_add ++ vec 1 nonce ++ vec 2 ticket ++ block
  end.

Definition frame_ok (f : frame) : Prop :=
  match f with
  | F_ServerHello version random session_id suite compression =>
      (version < 65536)%N /\ length random = 32 /\ fits 1 session_id /\
      In suite (map fst iana_cipher_suite) /\ (compression < 256)%N
  | F_EncryptedExtensions => True
  | F_CertificateRequest context => fits 1 context
  | F_Certificate context cert => fits 1 context /\ (N.of_nat (length cert) < 16000000)%N
  | F_NewSessionTicket lifetime age_add nonce ticket =>
      (lifetime < 4294967296)%N /\ (age_add < 4294967296)%N /\ fits 1 nonce /\ fits 2 ticket
  end.

(** The whole handshake message (section 4). *)
Definition message (f : frame) (items : list ext_item) : bytes :=
  uint 1 (frame_type f) ++ vec 3 (frame_body f (ext_block items)).
