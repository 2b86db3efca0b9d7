(** * Specification: code points from the IANA registries and RFC 8446

    Tables written from the RFCs (8446 sections 4, 4.2, 4.2.3, 4.2.7, 5.1, 6, B; 6066; 8449;
    8734; 8879; 9147; drafts for ML-KEM/ML-DSA), independently of the model's code
    functions. *)
From Coq Require Import List NArith.
From Verif Require Import Base Codes.
Import ListNotations.
Local Open Scope N_scope.

(** RFC 8446 B.1 *)
Definition iana_content_type : list (N * content_type) :=
  [(0, CT_Invalid); (20, CT_ChangeCipherSpec); (21, CT_Alert); (22, CT_Handshake);
   (23, CT_ApplicationData)].

(** RFC 8446 B.2 *)
Definition iana_alert_level : list (N * alert_level) := [(1, AL_Warning); (2, AL_Fatal)].
Definition iana_alert_desc : list (N * alert_desc) :=
  [(0, AD_CloseNotify); (10, AD_UnexpectedMessage); (20, AD_BadRecordMac);
   (22, AD_RecordOverflow); (40, AD_HandshakeFailure); (42, AD_BadCertificate);
   (43, AD_UnsupportedCertificate); (44, AD_CertificateRevoked); (45, AD_CertificateExpired);
   (46, AD_CertificateUnknown); (47, AD_IllegalParameter); (48, AD_UnknownCa);
   (49, AD_AccessDenied); (50, AD_DecodeError); (51, AD_DecryptError);
   (70, AD_ProtocolVersion); (71, AD_InsufficientSecurity); (80, AD_InternalError);
   (86, AD_InappropriateFallback); (90, AD_UserCanceled); (109, AD_MissingExtension);
   (110, AD_UnsupportedExtension); (112, AD_UnrecognizedName);
   (113, AD_BadCertificateStatusResponse); (115, AD_UnknownPskIdentity);
   (116, AD_CertificateRequired); (120, AD_NoApplicationProtocol)].

(** RFC 8446 B.3 *)
Definition iana_handshake_type : list (N * handshake_type) :=
  [(1, HT_ClientHello); (2, HT_ServerHello); (4, HT_NewSessionTicket); (5, HT_EndOfEarlyData);
   (8, HT_EncryptedExtensions); (11, HT_Certificate); (13, HT_CertificateRequest);
   (15, HT_CertificateVerify); (20, HT_Finished); (24, HT_KeyUpdate); (254, HT_MessageHash)].

(** RFC 8446 B.4, RFC 5487 *)
Definition iana_cipher_suite : list (N * cipher_suite) :=
  [(0x00A8, CS_TlsPskAes128GcmSha256); (0x1301, CS_TlsAes128GcmSha256);
   (0x1302, CS_TlsAes256GcmSha384); (0x1303, CS_TlsChacha20Poly1305Sha256);
   (0x1304, CS_TlsAes128CcmSha256); (0x1305, CS_TlsAes128Ccm8Sha256)].

(** RFC 8446 4.2, RFC 8879 *)
Definition iana_ext_type : list (N * ext_type) :=
  [(0, ET_ServerName); (1, ET_MaxFragmentLength); (5, ET_StatusRequest);
   (10, ET_SupportedGroups); (13, ET_SignatureAlgorithms); (14, ET_UseSrtp);
   (15, ET_Heartbeat); (16, ET_ApplicationLayerProtocolNegotiation);
   (18, ET_SignedCertificateTimestamp); (19, ET_ClientCertificateType);
   (20, ET_ServerCertificateType); (21, ET_Padding); (27, ET_CompressCertificate);
   (41, ET_PreSharedKey); (42, ET_EarlyData); (43, ET_SupportedVersions); (44, ET_Cookie);
   (45, ET_PskKeyExchangeModes); (47, ET_CertificateAuthorities); (48, ET_OidFilters);
   (49, ET_PostHandshakeAuth); (50, ET_SignatureAlgorithmsCert); (51, ET_KeyShare)].

(** RFC 8446 4.2.7, draft-ietf-tls-ecdhe-mlkem *)
Definition iana_named_group : list (N * named_group) :=
  [(0x0017, NG_Secp256r1); (0x0018, NG_Secp384r1); (0x0019, NG_Secp521r1);
   (0x001D, NG_X25519); (0x001E, NG_X448); (0x0100, NG_Ffdhe2048); (0x0101, NG_Ffdhe3072);
   (0x0102, NG_Ffdhe4096); (0x0103, NG_Ffdhe6144); (0x0104, NG_Ffdhe8192);
   (0x11EB, NG_SecP256r1MLKEM768); (0x11EC, NG_X25519MLKEM768);
   (0x11ED, NG_SecP384r1MLKEM1024)].

(** RFC 8446 4.2.3, RFC 8734, draft-ietf-tls-mldsa, RFC 5246 hash/signature pairs *)
Definition iana_sig_scheme : list (N * sig_scheme) :=
  [(0x0201, SS_RsaPkcs1Sha1); (0x0203, SS_EcdsaSha1);
   (0x0301, SS_Sha224Rsa); (0x0302, SS_Sha224Dsa); (0x0303, SS_Sha224Ecdsa);
   (0x0401, SS_RsaPkcs1Sha256); (0x0403, SS_EcdsaSecp256r1Sha256);
   (0x0501, SS_RsaPkcs1Sha384); (0x0503, SS_EcdsaSecp384r1Sha384);
   (0x0601, SS_RsaPkcs1Sha512); (0x0603, SS_EcdsaSecp521r1Sha512);
   (0x0804, SS_RsaPssRsaeSha256); (0x0805, SS_RsaPssRsaeSha384); (0x0806, SS_RsaPssRsaeSha512);
   (0x0807, SS_Ed25519); (0x0808, SS_Ed448);
   (0x0809, SS_RsaPssPssSha256); (0x080A, SS_RsaPssPssSha384); (0x080B, SS_RsaPssPssSha512);
   (0x081A, SS_Sha256BrainpoolP256r1); (0x081B, SS_Sha384BrainpoolP384r1);
   (0x081C, SS_Sha512BrainpoolP512r1);
   (0x0904, SS_MlDsa44); (0x0905, SS_MlDsa65); (0x0906, SS_MlDsa87)].

(** RFC 6066 section 4, RFC 8446 4.2.9 *)
Definition iana_max_frag : list (N * max_frag) :=
  [(1, MFL_Bits9); (2, MFL_Bits10); (3, MFL_Bits11); (4, MFL_Bits12)].
Definition iana_psk_mode : list (N * psk_mode) := [(0, PM_PskKe); (1, PM_PskDheKe)].

(** A pair of coding functions implements a registry: encoding a value gives its entry,
    decoding gives a value exactly for the entries, and the registry is one-to-one. *)
Definition implements {A} (registry : list (N * A)) (code : A -> N) (of : N -> option A) : Prop :=
  (forall x, In (code x, x) registry) /\
  (forall n x, of n = Some x <-> In (n, x) registry) /\
  (forall n x y, In (n, x) registry -> In (n, y) registry -> x = y) /\
  (forall n m x, In (n, x) registry -> In (m, x) registry -> n = m).

(** ** RFC 8446 section 4.2: which extension may appear in which server message
    (cookie in ServerHello stands for HelloRetryRequest, RFC 8879 adds
    compress_certificate to CertificateRequest). *)
Inductive server_message :=
| InServerHello | InEncryptedExtensions | InCertificateRequest | InCertificate
| InNewSessionTicket.

Definition rfc_allowed (m : server_message) : list N :=
  match m with
  | InServerHello => [51 (* key_share *); 41 (* pre_shared_key *); 44 (* cookie *);
                      43 (* supported_versions *)]
  | InEncryptedExtensions =>
      [0 (* server_name *); 1 (* max_fragment_length *); 10 (* supported_groups *);
       14 (* use_srtp *); 15 (* heartbeat *); 16 (* alpn *); 19 (* client_certificate_type *);
       20 (* server_certificate_type *); 42 (* early_data *)]
  | InCertificateRequest =>
      [5 (* status_request *); 13 (* signature_algorithms *); 18 (* sct *);
       47 (* certificate_authorities *); 48 (* oid_filters *);
       50 (* signature_algorithms_cert *); 27 (* compress_certificate *)]
  | InCertificate => [5 (* status_request *); 18 (* sct *)]
  | InNewSessionTicket => [42 (* early_data *)]
  end.

(** An extension type code is recognised when the registry has it. *)
Definition recognised (code : N) : Prop := In code (map fst iana_ext_type).
