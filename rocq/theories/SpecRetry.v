(** * Specification: the HelloRetryRequest (RFC 8446 section 4.1.4) *)
From Coq Require Import List NArith Arith.
From Verif Require Import Base SpecWire SpecCodes SpecMessages.
Import ListNotations.

(** The random of every HelloRetryRequest: SHA-256 of "HelloRetryRequest" (section 4.1.3). *)
Definition retry_random : bytes := map byte_of
  [0xCF; 0x21; 0xAD; 0x74; 0xE5; 0x9A; 0x61; 0x11; 0xBE; 0x1D; 0x8C; 0x02; 0x1E; 0x65; 0xB8; 0x91;
   0xC2; 0xA2; 0x11; 0x16; 0x7A; 0xBB; 0x8C; 0x5E; 0x07; 0x9E; 0x09; 0xE2; 0xC8; 0xA8; 0x33; 0x9C]%N.

(** Extensions of a HelloRetryRequest: supported_versions (43) with TLS 1.3, a cookie (44, section 4.2.2), key_share (51) with
    only the group that is asked for (section 4.2.8), and any that are not looked at. *)
Inductive retry_item : ext_item -> Prop :=
| ri_versions : retry_item (43%N, uint 2 0x0304)
| ri_cookie cookie : cookie <> [] -> fits 2 cookie -> retry_item (44%N, vec 2 cookie)
| ri_group g : (g < 65536)%N -> retry_item (51%N, uint 2 g)
| ri_other t b : ~ In t (map fst iana_ext_type) -> retry_item (t, b).

(** [msg] is a HelloRetryRequest: it has the form of a ServerHello. *)
Definition retry_request (sid : bytes) (suite : N) (items : list ext_item) (msg : bytes) : Prop :=
  Forall retry_item items /\ block_ok items /\ fits 1 sid /\ In suite (map fst iana_cipher_suite) /\
  msg = message (F_ServerHello 0x0303 retry_random sid suite 0) items.
