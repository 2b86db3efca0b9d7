(** * Model of code that is compiled but that nothing in the crate calls *)
From Coq Require Import List NArith Arith.
From Coq.Strings Require Import Byte.
From Verif Require Import Base Buffer ParseBuffer Codes Extensions.
Import ListNotations.

(** messages.rs:100-106 [HelloRetryRequestExtension]. *)
Definition grp_hello_retry : ext_group := fun t =>
  match t with
  | ET_KeyShare | ET_Cookie | ET_SupportedVersions => Some parse_unimpl
  | _ => None
  end.

(** key_share.rs:55-59 [KeyShareHelloRetryRequest::parse]. *)
Definition parse_key_share_retry : P parse_error named_group := parse_named_group.

(** key_share.rs:61-63 [KeyShareHelloRetryRequest::encode]. *)
Definition enc_key_share_retry (g : named_group) : W unit := enc_named_group g.

(** change_cipher_spec.rs:22-24 [ChangeCipherSpec::parse]. *)
Definition parse_ccs : P tls_error unit := ret tt.

(** change_cipher_spec.rs:27-30 [ChangeCipherSpec::encode]. *)
Definition enc_ccs : W unit := enc_err (cb_push x01).
