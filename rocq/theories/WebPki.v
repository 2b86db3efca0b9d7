(** * Model of src/webpki.rs: the verifier built on rustls-webpki

    The webpki crate is a parameter. *)
From Coq Require Import List NArith Arith Bool.
From Coq.Strings Require Import Byte.
From Verif Require Import Base Codes Crypto Handshake Pki.
Import ListNotations.

(** The [webpki::SignatureAlgorithm]s named in webpki.rs:13-119. *)
Inductive web_alg :=
| W_EcdsaP256Sha256 | W_EcdsaP256Sha384 | W_EcdsaP384Sha256 | W_EcdsaP384Sha384 | W_Ed25519
| W_RsaPkcs1Sha256 | W_RsaPkcs1Sha384 | W_RsaPkcs1Sha512
| W_RsaPssSha256 | W_RsaPssSha384 | W_RsaPssSha512.

Record web_lib := mk_web {
  w_anchor : bytes -> bool;                (* TrustAnchor::try_from_cert_der is Ok *)
  w_leaf : bytes -> bool;                  (* EndEntityCert::try_from is Ok *)
  (* verify_for_usage: algorithms, the trust anchor, the certificate, the time, with no
     intermediates, for server_auth *)
  w_usage : list web_alg -> bytes -> bytes -> N -> bool;
  w_name_ok : bytes -> bool;               (* SubjectNameRef::try_from_ascii is Ok *)
  w_for_name : bytes -> bytes -> bool;     (* verify_is_valid_for_subject_name *)
  w_verify : web_alg -> bytes -> bytes -> bytes -> bool (* certificate, message, signature *) }.

(** webpki.rs:113-119 [ALL_SIGALGS]. *)
Definition ALL_SIGALGS : list web_alg :=
  [W_EcdsaP256Sha256; W_EcdsaP256Sha384; W_EcdsaP384Sha256; W_EcdsaP384Sha384; W_Ed25519].

(** webpki.rs:13-62 (without the feature alloc) and 64-111 (with it): [try_into]. *)
Definition web_scheme (alloc : bool) (s : sig_scheme) : option web_alg :=
  match s with
  | SS_EcdsaSecp256r1Sha256 => Some W_EcdsaP256Sha256
  | SS_EcdsaSecp384r1Sha384 => Some W_EcdsaP384Sha384
  | SS_Ed25519 => Some W_Ed25519
  | SS_RsaPkcs1Sha256 => if alloc then Some W_RsaPkcs1Sha256 else None
  | SS_RsaPkcs1Sha384 => if alloc then Some W_RsaPkcs1Sha384 else None
  | SS_RsaPkcs1Sha512 => if alloc then Some W_RsaPkcs1Sha512 else None
  | SS_RsaPssRsaeSha256 => if alloc then Some W_RsaPssSha256 else None
  | SS_RsaPssRsaeSha384 => if alloc then Some W_RsaPssSha384 else None
  | SS_RsaPssRsaeSha512 => if alloc then Some W_RsaPssSha512 else None
  | _ => None
  end.

Section WebPki.
Context (W : web_lib) (alloc : bool).

(** webpki.rs:190-224 [verify_signature]. *)
Definition web_verify_signature (message : bytes) (c : cert_ref) (v : cert_verify) : outcome tls_error unit :=
  match ce_entries c with
  | CE_X509 d :: _ =>
      if w_leaf W d then
        a <-- ok_or InvalidSignatureScheme (web_scheme alloc (cv_scheme v)) ;;
        if w_verify W a d message (cv_sig v) then Ok tt else Err InvalidSignature
      else Err DecodeError
  | _ => Err InvalidSignature
  end.

(** webpki.rs:226-296 [verify_certificate]. *)
Definition web_verify_certificate (host : option bytes) (ca : cert_entry) (c : cert_ref) (now : option N)
  : outcome tls_error unit :=
  vh <--
    match ca with
    | CE_X509 a =>
        if w_anchor W a then
          match ce_entries c with
          | CE_X509 d :: _ =>
              if w_leaf W d then
                let time := match now with Some n => n | None => 0%N end in
                Ok (w_usage W ALL_SIGALGS a d time,
                    match host with
                    | Some h => w_name_ok W h && w_for_name W d h
                    | None => false
                    end)
              else Err DecodeError
          | _ => Ok (false, false)
          end
        else Err DecodeError
    | CE_RawPublicKey _ => Ok (false, false)
    end ;;
  let '(verified, host_verified) := vh in
  if negb verified then Err InvalidCertificate else
  if negb host_verified && match host with Some _ => true | None => false end
  then Err InvalidCertificate else Ok tt.

(** webpki.rs:163-172 [CertVerifier::verify_certificate]; the state is that of Pki.v. *)
Definition wv_verify_certificate (ca : cert_entry) (now : option N) (cert_size : nat)
  (tr : bytes) (cert : cert_ref) : M pki_state tls_error unit := fun s =>
  match (_ <-- web_verify_certificate (pv_host s) ca cert now ;; cert_to_owned cert_size cert) with
  | Ok o => (Ok tt, mk_pv (pv_host s) (Some tr) (Some o))
  | Err e => (Err e, s)
  | Panic p => (Panic p, s)
  | Diverge => (Diverge, s)
  | Cancelled => (Cancelled, s)
  end.

(** webpki.rs:174-188 [CertVerifier::verify_signature]: the message in a [Vec<u8, 130>]. *)
Definition wv_verify_signature (C : crypto) (v : cert_verify) : M pki_state tls_error unit := fun s =>
  (tr <-- unwrap (pv_transcript s) ;;
   msg <-- signed_message 130 (c_hash C tr) ;;
   o <-- unwrap (pv_certificate s) ;;
   c <-- cert_from_owned o ;;
   web_verify_signature msg c v,
   mk_pv (pv_host s) None (pv_certificate s)).
End WebPki.

(** webpki.rs:156-161 [set_hostname_verification] is [pv_set_hostname]. *)
