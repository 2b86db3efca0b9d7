(** * Model of src/pki.rs and src/der_certificate.rs: the built-in certificate verifier

    The crates behind them are parameters: [der] (decoding a certificate, decoding a DER
    header) and the signature crates (p256, p384, ed25519-dalek, rsa). *)
From Coq Require Import List NArith Arith Bool.
From Coq.Strings Require Import Byte.
From Verif Require Import Base Codes Crypto Handshake.
Import ListNotations.

(** ** The crates *)

(** der_certificate.rs:18-22 [AlgorithmIdentifier]: the content bytes of the object
    identifier, and the whole encoding of the parameters. *)
Definition alg_id := (bytes * option bytes)%type.

(** der_certificate.rs:132-139 [Time]; the value is [to_unix_duration().as_secs()]. *)
Inductive cert_time := UtcTime (secs : N) | GeneralTime (secs : N).

(** der_certificate.rs:86-92 [DecodedCertificate] with 169-191 [TbsCertificate]; only the
    fields that are looked at.  [BitStringRef::as_bytes] is [None] when the number of bits is
    not a multiple of 8.  An attribute is its object identifier and the bytes of its value; an
    extension its object identifier, the tag of its value, and the bytes of the value. *)
Record dcert := mk_dcert {
  dc_not_before : cert_time; dc_not_after : cert_time;
  dc_subject : list (list (bytes * bytes));       (* SequenceOf<SetOf<_, 1>, 7> *)
  dc_key : option bytes;
  dc_extensions : option (list (bytes * (byte * bytes)));
  dc_alg : alg_id;
  dc_signature : option bytes }.

(** The signature algorithms the verifier can use. *)
Inductive sig_alg :=
| A_P256 | A_P384 | A_Ed25519
| A_Pkcs1_256 | A_Pkcs1_384 | A_Pkcs1_512
| A_Pss_256 | A_Pss_384 | A_Pss_512.

Record pki_lib := mk_pki {
  k_cert : bytes -> option dcert;                 (* DecodedCertificate::from_der *)
  k_header : bytes -> option (byte * nat * bytes);(* Header::decode: tag byte, length, the rest *)
  k_key_ok : sig_alg -> bytes -> bool;            (* VerifyingKey::from_* *)
  k_sig_ok : sig_alg -> bytes -> bool;            (* Signature::from_der / try_from *)
  k_verify : sig_alg -> bytes -> bytes -> bytes -> bool (* key, message, signature *) }.

(** Reading a header takes at least the tag byte and gives back the rest. *)
Record pki_ok (L : pki_lib) : Prop := mk_pki_ok {
  ok_header : forall b t n r, k_header L b = Some (t, n, r) -> exists h, b = (t :: h) ++ r }.

(** The Cargo features p384, ed25519 and rsa. *)
Record features := mk_features { f_p384 : bool; f_ed25519 : bool; f_rsa : bool }.

(** ** der_certificate.rs *)

(** der_certificate.rs:14-16, 31-61: object identifiers and algorithms. *)
Definition OID_COMMON_NAME : bytes := [x55; x04; x03].
Definition OID_SAN : bytes := [x55; x1d; x11].
Definition ID_ECDSA_SHA256 : alg_id := ([x2a; x86; x48; xce; x3d; x04; x03; x02], None).
Definition ID_ECDSA_SHA384 : alg_id := ([x2a; x86; x48; xce; x3d; x04; x03; x03], None).
Definition ID_ED25519 : alg_id := ([x2b; x65; x70], None).
Definition der_null : bytes := [x05; x00].
Definition ID_RSA_SHA256 : alg_id := ([x2a; x86; x48; x86; xf7; x0d; x01; x01; x0b], Some der_null).
Definition ID_RSA_SHA384 : alg_id := ([x2a; x86; x48; x86; xf7; x0d; x01; x01; x0c], Some der_null).
Definition ID_RSA_SHA512 : alg_id := ([x2a; x86; x48; x86; xf7; x0d; x01; x01; x0d], Some der_null).

Definition alg_eqb (a b : alg_id) : bool :=
  bytes_eqb (fst a) (fst b) &&
  match snd a, snd b with
  | None, None => true
  | Some x, Some y => bytes_eqb x y
  | _, _ => false
  end.

(** der_certificate.rs:11-12. *)
Definition MAX_SAN_DNS_NAMES : nat := 3.
Definition HOSTNAME_MAXLEN : nat := 64.

(** [core::str::from_utf8] succeeds (RFC 3629 section 4). *)
Definition between (lo hi : N) (b : byte) : bool := ((lo <=? Byte.to_N b) && (Byte.to_N b <=? hi))%N.
Definition is_cont (b : byte) : bool := between 128 191 b.
Fixpoint utf8_valid (b : bytes) : bool :=
  match b with
  | [] => true
  | a :: r =>
      if between 0 127 a then utf8_valid r else
      match r with
      | [] => false
      | c :: r2 =>
          if between 194 223 a then is_cont c && utf8_valid r2 else
          match r2 with
          | [] => false
          | d :: r3 =>
              if between 224 239 a then
                is_cont d && utf8_valid r3 &&
                (if between 224 224 a then between 160 191 c
                 else if between 237 237 a then between 128 159 c else is_cont c)
              else
              match r3 with
              | [] => false
              | e :: r4 =>
                  if between 240 244 a then
                    is_cont d && is_cont e && utf8_valid r4 &&
                    (if between 240 240 a then between 144 191 c
                     else if between 244 244 a then between 128 143 c else is_cont c)
                  else false
              end
          end
      end
  end.

(** der_certificate.rs:200-221 [extract_common_name]; [None] stands for the [der::Error]. *)
Fixpoint common_name_loop (subject : list (list (bytes * bytes))) (cn : option bytes)
  : option (option bytes) :=
  match subject with
  | [] => Some cn
  | [] :: _ => None
  | ((oid, value) :: _) :: r =>
      if bytes_eqb oid OID_COMMON_NAME then
        if length value <=? HOSTNAME_MAXLEN
        then common_name_loop r (if utf8_valid value then Some value else None)
        else None
      else common_name_loop r cn
  end.
Definition extract_common_name (c : dcert) : option (option bytes) :=
  common_name_loop (dc_subject c) None.

Section Pki.
Context (L : pki_lib) (F : features).

(** der_certificate.rs:251-278, the loop over the general names of one extension. *)
Fixpoint san_loop (fuel : nat) (b : bytes) (names : list bytes) : outcome tls_error (list bytes) :=
  match b with
  | [] => Ok names
  | tag_byte :: _ =>
      match fuel with
      | O => Diverge
      | S fuel =>
          match k_header L b with
          | None => Err DecodeError
          | Some (_, n, r) =>
              if n <=? length r then
                let value := firstn n r in
                if byte_eqb tag_byte x82 then
                  if utf8_valid value && (length value <=? HOSTNAME_MAXLEN) then
                    (* [let _ = dns_names.push(..)] *)
                    let names := if length names <? MAX_SAN_DNS_NAMES then names ++ [value] else names in
                    if length names =? MAX_SAN_DNS_NAMES then Ok names else san_loop fuel (skipn n r) names
                  else Err DecodeError
                else san_loop fuel (skipn n r) names
              else Err DecodeError
          end
      end
  end.

(** der_certificate.rs:240-279, the loop over the extensions.  Every [der::Error] is turned into
    [DecodeError] by the only caller, pki.rs:320-321. *)
Fixpoint san_extensions (exts : list (bytes * (byte * bytes))) (names : list bytes)
  : outcome tls_error (list bytes) :=
  match exts with
  | [] => Ok names
  | (oid, (tag, value)) :: r =>
      if bytes_eqb oid OID_SAN then
        if byte_eqb tag x04 then
          match k_header L value with
          | None => Err DecodeError
          | Some (t, n, content) =>
              if byte_eqb t x30 then
                if n <=? length content then
                  names <-- san_loop (length value) (firstn n content) names ;;
                  san_extensions r names
                else Err DecodeError
              else Err DecodeError
          end
        else Err DecodeError
      else san_extensions r names
  end.

(** der_certificate.rs:230-281 [extract_san_dns_names]. *)
Definition extract_san_dns_names (c : dcert) : outcome tls_error (list bytes) :=
  match dc_extensions c with
  | None => Ok []
  | Some exts => san_extensions exts []
  end.

(** ** pki.rs, the functions *)

(** pki.rs:26-29 [CertificateNames]. *)
Record cert_names := mk_names { cn_common : option bytes; cn_sans : list bytes }.

(** pki.rs:270-281 [get_certificate_tlv_bytes]; [None] stands for the [der::Error]. *)
Definition get_certificate_tlv_bytes (input : bytes) : option bytes :=
  match k_header L input with
  | Some (t1, _, r1) =>
      if byte_eqb t1 x30 then
        match k_header L r1 with
        | Some (t2, n, r2) =>
            if byte_eqb t2 x30 then
              if n <=? length r2 then Some (firstn (length r1 - length r2 + n) r1) else None
            else None
        | None => None
        end
      else None
  | None => None
  end.

(** pki.rs:283-288 [get_cert_time]. *)
Definition get_cert_time (t : cert_time) : N := match t with UtcTime n | GeneralTime n => n end.

(** pki.rs:336-462, the arms of the match on the signature algorithm. *)
Definition cert_alg (a : alg_id) : option sig_alg :=
  if alg_eqb a ID_ECDSA_SHA256 then Some A_P256
  else if f_p384 F && alg_eqb a ID_ECDSA_SHA384 then Some A_P384
  else if f_ed25519 F && alg_eqb a ID_ED25519 then Some A_Ed25519
  else if f_rsa F && alg_eqb a ID_RSA_SHA256 then Some A_Pkcs1_256
  else if f_rsa F && alg_eqb a ID_RSA_SHA384 then Some A_Pkcs1_384
  else if f_rsa F && alg_eqb a ID_RSA_SHA512 then Some A_Pkcs1_512
  else None.

(** The key of an arm: [from_sec1_bytes], [from_pkcs1_der], or for Ed25519
    [from_bytes(key.try_into().unwrap())] with a [[u8; 32]]. *)
Definition arm_key (a : sig_alg) (key : bytes) : outcome tls_error unit :=
  match a with
  | A_Ed25519 =>
      if length key =? 32 then (if k_key_ok L a key then Ok tt else Err DecodeError) else Panic PUnwrap
  | _ => if k_key_ok L a key then Ok tt else Err DecodeError
  end.

(** pki.rs:290-474 [verify_certificate]. *)
Definition verify_certificate (verifier certificate : cert_entry) (now : option N)
  : outcome tls_error cert_names :=
  ca <-- match verifier with
         | CE_X509 d => ok_or DecodeError (k_cert L d)
         | CE_RawPublicKey _ => Err DecodeError
         end ;;
  match certificate with
  | CE_X509 d =>
      c <-- ok_or DecodeError (k_cert L d) ;;
      key <-- ok_or DecodeError (dc_key ca) ;;
      cn <-- ok_or DecodeError (extract_common_name c) ;;
      sans <-- extract_san_dns_names c ;;
      _ <-- (if match now with
          | Some now => (now <? get_cert_time (dc_not_before c))%N || (get_cert_time (dc_not_after c) <? now)%N
          | None => false
          end
       then Err InvalidCertificate else Ok tt) ;;
      tbs <-- ok_or DecodeError (get_certificate_tlv_bytes d) ;;
      match cert_alg (dc_alg c) with
      | None => Err InvalidSignatureScheme
      | Some a =>
          _ <-- arm_key a key ;;
          sg <-- ok_or (ParseErr PE_InvalidData) (dc_signature c) ;;
          if k_sig_ok L a sg then
            if k_verify L a key tbs sg then Ok (mk_names cn sans) else Err InvalidCertificate
          else Err (ParseErr PE_InvalidData)
      end
  | CE_RawPublicKey _ => Err InvalidCertificate
  end.

(** pki.rs:31-63 [CertificateChain]: (CA, last), (last, last but one), .., (second, first). *)
Record chain_iter := mk_chain { ch_prev : cert_entry; ch_entries : list cert_entry; ch_left : nat }.
Definition chain_new (ca : cert_entry) (entries : list cert_entry) : chain_iter :=
  mk_chain ca entries (length entries).
(** [ch_left] is [idx + 1]. *)
Definition chain_next (c : chain_iter) : outcome tls_error (option ((cert_entry * cert_entry) * chain_iter)) :=
  match ch_left c with
  | O => Ok None
  | S i => cur <-- index (ch_entries c) i ;;
           Ok (Some ((ch_prev c, cur), mk_chain cur (ch_entries c) i))
  end.

(** pki.rs:117-119, the loop of [CertVerifier::verify_certificate]. *)
Fixpoint chain_loop (fuel : nat) (c : chain_iter) (now : option N) (names : cert_names)
  : outcome tls_error cert_names :=
  match fuel with
  | O => Diverge
  | S fuel =>
      nx <-- chain_next c ;;
      match nx with
      | None => Ok names
      | Some ((p, q), c) => names <-- verify_certificate p q now ;; chain_loop fuel c now names
      end
  end.

(** pki.rs:505-584 [tls_hostname_match_impl]. *)
Definition chr (n : N) (b : byte) : bool := (Byte.to_N b =? n)%N.
Definition host_char (b : byte) : bool :=
  between 97 122 b || between 65 90 b || between 48 57 b || chr 45 b || chr 46 b.
Definition to_lower (b : byte) : N :=
  if between 65 90 b then (Byte.to_N b + 32)%N else Byte.to_N b.
Fixpoint count (f : byte -> bool) (l : bytes) : nat :=
  match l with [] => 0 | b :: r => (if f b then 1 else 0) + count f r end.
Fixpoint same_lower (a b : bytes) : bool :=
  match a, b with
  | [], [] => true
  | x :: a, y :: b => (to_lower x =? to_lower y)%N && same_lower a b
  | _, _ => false
  end.
(** [host[dot_idx + 1..]] for the first dot. *)
Fixpoint after_dot (h : bytes) : option bytes :=
  match h with [] => None | b :: r => if chr 46 b then Some r else after_dot r end.
Definition tls_hostname_match_impl (cn host : bytes) : bool :=
  if negb (forallb (fun b => host_char b || chr 42 b) cn) then false else
  if negb (forallb host_char host) then false else
  let cn_labels := 1 + count (chr 46) cn in
  let host_labels := 1 + count (chr 46) host in
  let stars := count (chr 42) cn in
  if stars =? 0 then (if negb (length cn =? length host) then false else same_lower cn host) else
  if negb (stars =? 1) then false else
  if negb (match cn with a :: b :: _ => chr 42 a && chr 46 b | _ => false end) then false else
  if cn_labels <? 3 then false else
  if negb (cn_labels =? host_labels) then false else
  let suffix := skipn 2 cn in
  match after_dot host with
  | None => false
  | Some host_suffix =>
      if negb (length suffix =? length host_suffix) then false else same_lower suffix host_suffix
  end.

(** pki.rs:482-503 [tls_hostname_match]. *)
Definition tls_hostname_match (names : cert_names) (hostname : option bytes) : bool :=
  match hostname with
  | None => match cn_common names with None => true | Some _ => false end &&
            match cn_sans names with [] => true | _ => false end
  | Some h =>
      existsb (fun san => tls_hostname_match_impl san h) (cn_sans names) ||
      match cn_common names with
      | Some cn => tls_hostname_match_impl cn h
      | None => false
      end
  end.

(** pki.rs:174-262, the arms of the match on the signature scheme. *)
Definition scheme_alg (s : sig_scheme) : option sig_alg :=
  match s with
  | SS_EcdsaSecp256r1Sha256 => Some A_P256
  | SS_EcdsaSecp384r1Sha384 => if f_p384 F then Some A_P384 else None
  | SS_Ed25519 => if f_ed25519 F then Some A_Ed25519 else None
  | SS_RsaPssRsaeSha256 => if f_rsa F then Some A_Pss_256 else None
  | SS_RsaPssRsaeSha384 => if f_rsa F then Some A_Pss_384 else None
  | SS_RsaPssRsaeSha512 => if f_rsa F then Some A_Pss_512 else None
  | _ => None
  end.

(** The key of an arm; for RSA-PSS with SHA-256 (pki.rs:212) the error is unwrapped. *)
Definition arm_key_cv (a : sig_alg) (key : bytes) : outcome tls_error unit :=
  match a with
  | A_Pss_256 => if k_key_ok L a key then Ok tt else Panic PUnwrap
  | _ => arm_key a key
  end.

(** pki.rs:150-268 [verify_signature]. *)
Definition verify_signature (message : bytes) (c : cert_ref) (v : cert_verify) : outcome tls_error unit :=
  match ce_entries c with
  | CE_X509 d :: _ =>
      dc <-- ok_or DecodeError (k_cert L d) ;;
      key <-- ok_or DecodeError (dc_key dc) ;;
      match scheme_alg (cv_scheme v) with
      | None => Err InvalidSignatureScheme
      | Some a =>
          _ <-- arm_key_cv a key ;;
          if k_sig_ok L a (cv_sig v) then
            if k_verify L a key message (cv_sig v) then Ok tt else Err InvalidSignature
          else Err DecodeError
      end
  | _ => Err DecodeError
  end.

(** ** pki.rs, the verifier *)

(** pki.rs:65-75 [CertVerifier]; the certificate authority, the clock and CERT_SIZE do not
    change and are parameters below.  [pv_transcript] holds the bytes hashed so far. *)
Record pki_state := mk_pv {
  pv_host : option bytes; pv_transcript : option bytes; pv_certificate : option cert_owned }.

(** pki.rs:83-91 [new]. *)
Definition pv_new : pki_state := mk_pv None None None.

(** pki.rs:100-105 [set_hostname_verification]. *)
Definition pv_set_hostname (h : bytes) : M pki_state tls_error unit := fun s =>
  if length h <=? HOSTNAME_MAXLEN then (Ok tt, mk_pv (Some h) (pv_transcript s) (pv_certificate s))
  else (Err InsufficientSpace, s).

(** pki.rs:107-132 [verify_certificate]. *)
Definition pv_verify_certificate (ca : cert_entry) (now : option N) (cert_size : nat)
  (tr : bytes) (cert : cert_ref) : M pki_state tls_error unit := fun s =>
  match (names <-- chain_loop (S (length (ce_entries cert))) (chain_new ca (ce_entries cert)) now (mk_names None []) ;;
         _ <-- (if tls_hostname_match names (pv_host s) then Ok tt else Err InvalidCertificate) ;;
         cert_to_owned cert_size cert)
  with
  | Ok o => (Ok tt, mk_pv (pv_host s) (Some tr) (Some o))
  | Err e => (Err e, s)
  | Panic p => (Panic p, s)
  | Diverge => (Diverge, s)
  | Cancelled => (Cancelled, s)
  end.

(** [b"TLS 1.3, server CertificateVerify\x00"]. *)
Definition server_ctx : bytes :=
  [x54; x4c; x53; x20; x31; x2e; x33; x2c; x20; x73; x65; x72; x76; x65; x72; x20;
   x43; x65; x72; x74; x69; x66; x69; x63; x61; x74; x65; x56; x65; x72; x69; x66; x79; x00].

(** pki.rs:137-142: the message in a [Vec<u8, cap>]. *)
Definition signed_message (cap : nat) (hash : bytes) : outcome tls_error bytes :=
  if 64 <=? cap then
    let m := repeat x20 64 in
    if length m + length server_ctx <=? cap then
      let m := m ++ server_ctx in
      if length m + length hash <=? cap then Ok (m ++ hash) else Err EncodeError
    else Err EncodeError
  else Err EncodeError.

(** pki.rs:134-148 [verify_signature]: the transcript is taken out first. *)
Definition pv_verify_signature (C : crypto) (v : cert_verify) : M pki_state tls_error unit := fun s =>
  (tr <-- unwrap (pv_transcript s) ;;
   msg <-- signed_message 146 (c_hash C tr) ;;
   o <-- unwrap (pv_certificate s) ;;
   c <-- cert_from_owned o ;;
   verify_signature msg c v,
   mk_pv (pv_host s) None (pv_certificate s)).
End Pki.
