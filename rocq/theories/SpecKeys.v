(** * Specification: RFC 8446 sections 5.3, 7.1, 7.3, 4.4.4, 4.2.11.2

    Written from the RFC over the abstract primitives (hash, HMAC, HKDF) only. *)
From Coq Require Import List NArith Arith String.
From Coq.Strings Require Import Byte.
From Verif Require Import Base Crypto SpecWire.
Import ListNotations.
Local Open Scope list_scope.

Definition ascii (s : string) : bytes := list_byte_of_string s.

Section Schedule.
Context (C : crypto).

(** struct { uint16 length; opaque label<7..255>; opaque context<0..255> } HkdfLabel (7.1) *)
Definition rfc_hkdf_label (len : nat) (label : string) (context : bytes) : bytes :=
  uint 2 (N.of_nat len) ++ vec 1 (ascii "tls13 " ++ ascii label) ++ vec 1 context.

(** HKDF-Expand-Label; [None] when HKDF-Expand refuses the length. *)
Definition rfc_expand_label (secret : bytes) (label : string) (context : bytes) (len : nat)
  : option bytes :=
  c_expand C secret (rfc_hkdf_label len label context) len.

(** Derive-Secret(Secret, Label, Messages) *)
Definition rfc_derive_secret (secret : bytes) (label : string) (messages : bytes) : option bytes :=
  rfc_expand_label secret label (c_hash C messages) (hash_len C).

Definition rfc_zero : bytes := repeat x00 (hash_len C).

(** The early, handshake and master secrets (figure in 7.1). *)
Definition rfc_early (psk : option bytes) : bytes :=
  c_extract C rfc_zero (match psk with Some k => k | None => rfc_zero end).
Definition rfc_binder_key (psk : option bytes) : option bytes :=
  rfc_derive_secret (rfc_early psk) "ext binder" [].
Definition rfc_handshake (psk : option bytes) (dhe : bytes) : option bytes :=
  match rfc_derive_secret (rfc_early psk) "derived" [] with
  | Some salt => Some (c_extract C salt dhe)
  | None => None
  end.
Definition rfc_master (psk : option bytes) (dhe : bytes) : option bytes :=
  match rfc_handshake psk dhe with
  | Some hs => match rfc_derive_secret hs "derived" [] with
               | Some salt => Some (c_extract C salt rfc_zero)
               | None => None
               end
  | None => None
  end.

(** Traffic keys (7.3). *)
Definition rfc_key (traffic : bytes) : option bytes := rfc_expand_label traffic "key" [] (key_len C).
Definition rfc_iv (traffic : bytes) : option bytes := rfc_expand_label traffic "iv" [] (iv_len C).

(** Finished (4.4.4): verify_data over the transcript [messages]. *)
Definition rfc_verify_data (base_key messages : bytes) : option bytes :=
  match rfc_expand_label base_key "finished" [] (hash_len C) with
  | Some k => Some (c_hmac C k (c_hash C messages))
  | None => None
  end.
End Schedule.

(** Per-record nonce (5.3): the 64-bit sequence number in network order, padded on the left
    with zeros to the length of the IV, xored with the IV. *)
Definition xor_bytes (a b : bytes) : bytes :=
  map (fun p => byte_of (N.lxor (Byte.to_N (fst p)) (Byte.to_N (snd p)))) (combine a b).
Definition rfc_nonce (iv : bytes) (seq : N) : bytes :=
  xor_bytes iv (repeat x00 (List.length iv - 8) ++ uint 8 seq).
