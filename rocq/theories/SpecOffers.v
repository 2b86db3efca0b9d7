(** * Specification: answers to what the client offered (RFC 8446 section 4.2, RFC 6066 section 4, RFC 7301 section 3.1) *)
From Coq Require Import List NArith Arith.
From Coq.Strings Require Import Byte.
From Verif Require Import Base Codes Config SpecWire SpecCodes SpecMessages.
Import ListNotations.

(** The extension [i] of EncryptedExtensions answers something that a client with the configuration [cfg] offered, with a value
    that it allowed: server_name only if it gave a name; the maximum fragment length that it asked for and no other; of the
    protocols that it offered one; supported_groups at any time; nothing else, for it offers nothing else that could be
    answered there. *)
Definition answers_offer (cfg : tls_config) (i : ext_item) : Prop :=
  match fst i with
  | 0 (* server_name *) => cfg_server_name cfg <> None
  | 1 (* max_fragment_length *) => exists m code, cfg_max_frag cfg = Some m /\ In (code, m) iana_max_frag /\ snd i = uint 1 code
  | 10 (* supported_groups *) => True
  | 16 (* application_layer_protocol_negotiation *) =>
      exists names name, cfg_alpn cfg = Some names /\ In name names /\ snd i = vec 2 (vec 1 name)
  | _ => False
  end%N.

(** The EncryptedExtensions message with these extensions. *)
Definition ee_message (items : list ext_item) : bytes := uint 1 8 ++ vec 3 (ext_block items).
