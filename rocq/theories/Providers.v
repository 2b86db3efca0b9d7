(** * Model of src/config.rs: the providers that come with the crate *)
From Coq Require Import List NArith Arith Bool.
From Verif Require Import Base Codes Crypto Config Handshake Connection.
Import ListNotations.

(** The parts of the p256 crate that config.rs:251-253 uses: [SecretKey::from_sec1_der], and
    [SigningKey::from] followed by [Signer::sign], which gives a signature in DER.
    [None]: they fail.  Not modelled: what they compute. *)
Record ec_lib := mk_ec {
  ec_from_sec1 : bytes -> option bytes;
  ec_sign : bytes -> bytes -> option bytes
}.

(** config.rs:94-115 [NoVerify]. *)
Definition nv_set_hostname (_ : bytes) : M unit tls_error unit := ret tt.
Definition nv_verify_cert (_ : bytes) (_ : cert_ref) : M unit tls_error unit := ret tt.
Definition nv_verify_sig (_ : cert_verify) : M unit tls_error unit := ret tt.

(** config.rs:133-139 [NoClock::now]. *)
Definition no_clock : option N := None.

(** certificate_verify.rs:37-40 [SIGNATURE_SIZE]; [rsa] is [cfg(feature = "rsa")]. *)
Definition signature_size (rsa : bool) : nat := if rsa then 512 else 104.

(** config.rs:141-171, the default methods of [CryptoProvider]: a provider that only has an [rng].
    Without a verifier the other three verifier fields are never used.  Simplified: the generator
    is what is drawn from it in one [open]: the random of the hello and the ephemeral secret. *)
Definition default_provider (rsa : bool) (random secret : bytes) : provider unit :=
  mk_provider random secret false nv_set_hostname nv_verify_cert nv_verify_sig None (Err Unimplemented) (signature_size rsa).

(** config.rs:206-211 [UnsecureProvider]. *)
Record unsecure := mk_unsecure {
  up_random : bytes; up_secret : bytes;      (* rng, as above *)
  up_key : option bytes;
  up_cert : option cert_entry
}.

(** config.rs:213-224 [UnsecureProvider::new]. *)
Definition up_new (random secret : bytes) : unsecure := mk_unsecure random secret None None.

(** config.rs:227-230 [with_priv_key]. *)
Definition up_with_key (u : unsecure) (key : bytes) : unsecure :=
  mk_unsecure (up_random u) (up_secret u) (Some key) (up_cert u).

(** config.rs:232-235 [with_cert]. *)
Definition up_with_cert (u : unsecure) (cert : cert_entry) : unsecure :=
  mk_unsecure (up_random u) (up_secret u) (up_key u) (Some cert).

(** config.rs:248-260 [signer]. *)
Definition up_signer (ec : ec_lib) (u : unsecure) : outcome tls_error ((bytes -> option bytes) * sig_scheme) :=
  key_der <-- ok_or InvalidPrivateKey (up_key u) ;;
  secret_key <-- ok_or InvalidPrivateKey (ec_from_sec1 ec key_der) ;;
  Ok (ec_sign ec secret_key, SS_EcdsaSecp256r1Sha256).

(** config.rs:238-265 [impl CryptoProvider for UnsecureProvider]; [verifier] is the default one. *)
Definition up_provider (ec : ec_lib) (rsa : bool) (u : unsecure) : provider unit :=
  mk_provider (up_random u) (up_secret u) false nv_set_hostname nv_verify_cert nv_verify_sig
    (up_cert u) (up_signer ec u) (signature_size rsa).

(** A provider like [p] whose [verifier] is a [NoVerify]. *)
Definition with_no_verify {V} (p : provider V) : provider unit :=
  mk_provider (p_random p) (p_secret p) true nv_set_hostname nv_verify_cert nv_verify_sig
    (p_client_cert p) (p_signer p) (p_sig_cap p).
