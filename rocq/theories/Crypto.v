(** * Abstract cryptography

    The client's cryptographic dependencies (sha2, hmac, hkdf, aes-gcm, p256)
    are not modelled: they are the fields of [crypto], a parameter of the model. *)
From Coq Require Import List NArith Arith Bool.
From Verif Require Import Base.
Import ListNotations.

(** config.rs:33-42 [TlsCipherSuite] together with the primitives it names. *)
Record crypto := mk_crypto {
  code_point : N;             (* CipherSuite::CODE_POINT *)
  hash_len : nat;             (* Hash::OutputSize *)
  key_len : nat;              (* KeyLen *)
  iv_len : nat;               (* IvLen *)
  tag_len : nat;              (* Cipher::TagSize *)
  label_cap : nat;            (* LabelBufferSize *)
  c_hash : bytes -> bytes;                    (* Digest of the whole input *)
  c_hmac : bytes -> bytes -> bytes;           (* SimpleHmac: key, message *)
  c_extract : bytes -> bytes -> bytes;        (* Hkdf::extract: salt, ikm -> prk *)
  c_expand : bytes -> bytes -> nat -> option bytes; (* Hkdf::expand: prk, info, length *)
  (* AeadInPlace::{encrypt,decrypt}_in_place_detached: key, nonce, associated data, text *)
  c_seal : bytes -> bytes -> bytes -> bytes -> bytes * bytes;  (* ciphertext, tag *)
  c_open : bytes -> bytes -> bytes -> bytes -> bytes -> option bytes; (* ct, tag -> plaintext *)
  (* p256 ECDH: the ephemeral secret is a byte string *)
  c_pub : bytes -> bytes;                     (* EncodedPoint of the public key *)
  c_dh : bytes -> bytes -> option bytes       (* secret, peer SEC1 bytes -> shared secret *)
}.

(** The laws about the primitives that the theorems may assume.  They hold of the
    two suites the crate ships (config.rs:44-66). *)
Record crypto_ok (C : crypto) : Prop := mk_crypto_ok {
  ok_iv_len : 8 <= iv_len C;                          (* config.rs:49,62: U12 *)
  ok_label_cap : label_cap C = hash_len C + 22;       (* config.rs:24-30 *)
  ok_tag_len : tag_len C = 16;
  ok_hash_len : forall m, length (c_hash C m) = hash_len C;
  ok_hmac_len : forall k m, length (c_hmac C k m) = hash_len C;
  ok_extract_len : forall s i, length (c_extract C s i) = hash_len C;
  ok_expand_len : forall p i n o, c_expand C p i n = Some o -> length o = n;
  (* RFC 5869: expand fails only for more than 255 blocks *)
  ok_expand_total : forall p i n, n <= 255 * hash_len C -> exists o, c_expand C p i n = Some o;
  ok_sizes : hash_len C <= 64 /\ 0 < hash_len C /\ key_len C <= 255 * hash_len C /\ iv_len C <= 255 * hash_len C;
  ok_seal_len : forall k n a m, length (fst (c_seal C k n a m)) = length m
                             /\ length (snd (c_seal C k n a m)) = tag_len C;
  ok_open_len : forall k n a c t m, c_open C k n a c t = Some m -> length m = length c;
  ok_open_seal : forall k n a m,
    c_open C k n a (fst (c_seal C k n a m)) (snd (c_seal C k n a m)) = Some m;
  ok_pub_len : forall s, length (c_pub C s) <= 133;
  ok_code_point : (code_point C < 65536)%N
}.
