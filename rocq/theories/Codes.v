(** * Enumerated wire types and their codes *)
From Coq Require Import List NArith.
From Verif Require Import Base.

(** content_types.rs:3-9 [ContentType] *)
Inductive content_type :=
| CT_Invalid
| CT_ChangeCipherSpec
| CT_Alert
| CT_Handshake
| CT_ApplicationData.

(** content_types.rs:3-9 [ContentType]: the code of a value. *)
Definition content_type_code (x : content_type) : N :=
  match x with
  | CT_Invalid => 0
  | CT_ChangeCipherSpec => 20
  | CT_Alert => 21
  | CT_Handshake => 22
  | CT_ApplicationData => 23
  end%N.

(** content_types.rs:12-21 [ContentType::of]. *)
Definition content_type_of (n : N) : option content_type :=
  match n with
  | 0 => Some CT_Invalid
  | 20 => Some CT_ChangeCipherSpec
  | 21 => Some CT_Alert
  | 22 => Some CT_Handshake
  | 23 => Some CT_ApplicationData
  | _ => None
  end%N.

(** alert.rs:7-10 [AlertLevel] as u8: the code of a value. *)
Definition alert_level_code (x : alert_level) : N :=
  match x with
  | AL_Warning => 1
  | AL_Fatal => 2
  end%N.

(** alert.rs:14-20 [AlertLevel::of]. *)
Definition alert_level_of (n : N) : option alert_level :=
  match n with
  | 1 => Some AL_Warning
  | 2 => Some AL_Fatal
  | _ => None
  end%N.

(** alert.rs:25-53 [AlertDescription] as u8: the code of a value. *)
Definition alert_desc_code (x : alert_desc) : N :=
  match x with
  | AD_CloseNotify => 0
  | AD_UnexpectedMessage => 10
  | AD_BadRecordMac => 20
  | AD_RecordOverflow => 22
  | AD_HandshakeFailure => 40
  | AD_BadCertificate => 42
  | AD_UnsupportedCertificate => 43
  | AD_CertificateRevoked => 44
  | AD_CertificateExpired => 45
  | AD_CertificateUnknown => 46
  | AD_IllegalParameter => 47
  | AD_UnknownCa => 48
  | AD_AccessDenied => 49
  | AD_DecodeError => 50
  | AD_DecryptError => 51
  | AD_ProtocolVersion => 70
  | AD_InsufficientSecurity => 71
  | AD_InternalError => 80
  | AD_InappropriateFallback => 86
  | AD_UserCanceled => 90
  | AD_MissingExtension => 109
  | AD_UnsupportedExtension => 110
  | AD_UnrecognizedName => 112
  | AD_BadCertificateStatusResponse => 113
  | AD_UnknownPskIdentity => 115
  | AD_CertificateRequired => 116
  | AD_NoApplicationProtocol => 120
  end%N.

(** alert.rs:57-88 [AlertDescription::of]. *)
Definition alert_desc_of (n : N) : option alert_desc :=
  match n with
  | 0 => Some AD_CloseNotify
  | 10 => Some AD_UnexpectedMessage
  | 20 => Some AD_BadRecordMac
  | 22 => Some AD_RecordOverflow
  | 40 => Some AD_HandshakeFailure
  | 42 => Some AD_BadCertificate
  | 43 => Some AD_UnsupportedCertificate
  | 44 => Some AD_CertificateRevoked
  | 45 => Some AD_CertificateExpired
  | 46 => Some AD_CertificateUnknown
  | 47 => Some AD_IllegalParameter
  | 48 => Some AD_UnknownCa
  | 49 => Some AD_AccessDenied
  | 50 => Some AD_DecodeError
  | 51 => Some AD_DecryptError
  | 70 => Some AD_ProtocolVersion
  | 71 => Some AD_InsufficientSecurity
  | 80 => Some AD_InternalError
  | 86 => Some AD_InappropriateFallback
  | 90 => Some AD_UserCanceled
  | 109 => Some AD_MissingExtension
  | 110 => Some AD_UnsupportedExtension
  | 112 => Some AD_UnrecognizedName
  | 113 => Some AD_BadCertificateStatusResponse
  | 115 => Some AD_UnknownPskIdentity
  | 116 => Some AD_CertificateRequired
  | 120 => Some AD_NoApplicationProtocol
  | _ => None
  end%N.

(** handshake/mod.rs:34-46 [HandshakeType] *)
Inductive handshake_type :=
| HT_ClientHello
| HT_ServerHello
| HT_NewSessionTicket
| HT_EndOfEarlyData
| HT_EncryptedExtensions
| HT_Certificate
| HT_CertificateRequest
| HT_CertificateVerify
| HT_Finished
| HT_KeyUpdate
| HT_MessageHash.

(** handshake/mod.rs:34-46 [HandshakeType]: the code of a value. *)
Definition handshake_type_code (x : handshake_type) : N :=
  match x with
  | HT_ClientHello => 1
  | HT_ServerHello => 2
  | HT_NewSessionTicket => 4
  | HT_EndOfEarlyData => 5
  | HT_EncryptedExtensions => 8
  | HT_Certificate => 11
  | HT_CertificateRequest => 13
  | HT_CertificateVerify => 15
  | HT_Finished => 20
  | HT_KeyUpdate => 24
  | HT_MessageHash => 254
  end%N.

(** handshake/mod.rs:49-65 [HandshakeType::parse], on the byte value. *)
Definition handshake_type_of (n : N) : option handshake_type :=
  match n with
  | 1 => Some HT_ClientHello
  | 2 => Some HT_ServerHello
  | 4 => Some HT_NewSessionTicket
  | 5 => Some HT_EndOfEarlyData
  | 8 => Some HT_EncryptedExtensions
  | 11 => Some HT_Certificate
  | 13 => Some HT_CertificateRequest
  | 15 => Some HT_CertificateVerify
  | 20 => Some HT_Finished
  | 24 => Some HT_KeyUpdate
  | 254 => Some HT_MessageHash
  | _ => None
  end%N.

(** cipher_suites.rs:5-12 [CipherSuite] *)
Inductive cipher_suite :=
| CS_TlsAes128GcmSha256
| CS_TlsAes256GcmSha384
| CS_TlsChacha20Poly1305Sha256
| CS_TlsAes128CcmSha256
| CS_TlsAes128Ccm8Sha256
| CS_TlsPskAes128GcmSha256.

(** cipher_suites.rs:5-12 [CipherSuite]: the code of a value. *)
Definition cipher_suite_code (x : cipher_suite) : N :=
  match x with
  | CS_TlsAes128GcmSha256 => 0x1301
  | CS_TlsAes256GcmSha384 => 0x1302
  | CS_TlsChacha20Poly1305Sha256 => 0x1303
  | CS_TlsAes128CcmSha256 => 0x1304
  | CS_TlsAes128Ccm8Sha256 => 0x1305
  | CS_TlsPskAes128GcmSha256 => 0x00A8
  end%N.

(** cipher_suites.rs:15-25 [CipherSuite::parse], on the u16 value. *)
Definition cipher_suite_of (n : N) : option cipher_suite :=
  match n with
  | 0x1301 => Some CS_TlsAes128GcmSha256
  | 0x1302 => Some CS_TlsAes256GcmSha384
  | 0x1303 => Some CS_TlsChacha20Poly1305Sha256
  | 0x1304 => Some CS_TlsAes128CcmSha256
  | 0x1305 => Some CS_TlsAes128Ccm8Sha256
  | 0x00A8 => Some CS_TlsPskAes128GcmSha256
  | _ => None
  end%N.

(** extensions/mod.rs:14-38 [ExtensionType] *)
Inductive ext_type :=
| ET_ServerName
| ET_MaxFragmentLength
| ET_StatusRequest
| ET_SupportedGroups
| ET_SignatureAlgorithms
| ET_UseSrtp
| ET_Heartbeat
| ET_ApplicationLayerProtocolNegotiation
| ET_SignedCertificateTimestamp
| ET_ClientCertificateType
| ET_ServerCertificateType
| ET_Padding
| ET_CompressCertificate
| ET_PreSharedKey
| ET_EarlyData
| ET_SupportedVersions
| ET_Cookie
| ET_PskKeyExchangeModes
| ET_CertificateAuthorities
| ET_OidFilters
| ET_PostHandshakeAuth
| ET_SignatureAlgorithmsCert
| ET_KeyShare.

(** extensions/mod.rs:14-38 [ExtensionType]: the code of a value. *)
Definition ext_type_code (x : ext_type) : N :=
  match x with
  | ET_ServerName => 0
  | ET_MaxFragmentLength => 1
  | ET_StatusRequest => 5
  | ET_SupportedGroups => 10
  | ET_SignatureAlgorithms => 13
  | ET_UseSrtp => 14
  | ET_Heartbeat => 15
  | ET_ApplicationLayerProtocolNegotiation => 16
  | ET_SignedCertificateTimestamp => 18
  | ET_ClientCertificateType => 19
  | ET_ServerCertificateType => 20
  | ET_Padding => 21
  | ET_CompressCertificate => 27
  | ET_PreSharedKey => 41
  | ET_EarlyData => 42
  | ET_SupportedVersions => 43
  | ET_Cookie => 44
  | ET_PskKeyExchangeModes => 45
  | ET_CertificateAuthorities => 47
  | ET_OidFilters => 48
  | ET_PostHandshakeAuth => 49
  | ET_SignatureAlgorithmsCert => 50
  | ET_KeyShare => 51
  end%N.

(** extensions/mod.rs:41-75 [ExtensionType::parse], on the u16 value. *)
Definition ext_type_of (n : N) : option ext_type :=
  match n with
  | 0 => Some ET_ServerName
  | 1 => Some ET_MaxFragmentLength
  | 5 => Some ET_StatusRequest
  | 10 => Some ET_SupportedGroups
  | 13 => Some ET_SignatureAlgorithms
  | 14 => Some ET_UseSrtp
  | 15 => Some ET_Heartbeat
  | 16 => Some ET_ApplicationLayerProtocolNegotiation
  | 18 => Some ET_SignedCertificateTimestamp
  | 19 => Some ET_ClientCertificateType
  | 20 => Some ET_ServerCertificateType
  | 21 => Some ET_Padding
  | 27 => Some ET_CompressCertificate
  | 41 => Some ET_PreSharedKey
  | 42 => Some ET_EarlyData
  | 43 => Some ET_SupportedVersions
  | 44 => Some ET_Cookie
  | 45 => Some ET_PskKeyExchangeModes
  | 47 => Some ET_CertificateAuthorities
  | 48 => Some ET_OidFilters
  | 49 => Some ET_PostHandshakeAuth
  | 50 => Some ET_SignatureAlgorithmsCert
  | 51 => Some ET_KeyShare
  | _ => None
  end%N.

(** supported_groups.rs:11-30 [NamedGroup]; [as_u16] 55-73 *)
Inductive named_group :=
| NG_Secp256r1
| NG_Secp384r1
| NG_Secp521r1
| NG_X25519
| NG_X448
| NG_Ffdhe2048
| NG_Ffdhe3072
| NG_Ffdhe4096
| NG_Ffdhe6144
| NG_Ffdhe8192
| NG_SecP256r1MLKEM768
| NG_X25519MLKEM768
| NG_SecP384r1MLKEM1024.

(** supported_groups.rs:11-30 [NamedGroup]; [as_u16] 55-73: the code of a value. *)
Definition named_group_code (x : named_group) : N :=
  match x with
  | NG_Secp256r1 => 0x0017
  | NG_Secp384r1 => 0x0018
  | NG_Secp521r1 => 0x0019
  | NG_X25519 => 0x001D
  | NG_X448 => 0x001E
  | NG_Ffdhe2048 => 0x0100
  | NG_Ffdhe3072 => 0x0101
  | NG_Ffdhe4096 => 0x0102
  | NG_Ffdhe6144 => 0x0103
  | NG_Ffdhe8192 => 0x0104
  | NG_SecP256r1MLKEM768 => 0x11EB
  | NG_X25519MLKEM768 => 0x11EC
  | NG_SecP384r1MLKEM1024 => 0x11ED
  end%N.

(** supported_groups.rs:33-53 [NamedGroup::parse], on the u16 value. *)
Definition named_group_of (n : N) : option named_group :=
  match n with
  | 0x0017 => Some NG_Secp256r1
  | 0x0018 => Some NG_Secp384r1
  | 0x0019 => Some NG_Secp521r1
  | 0x001D => Some NG_X25519
  | 0x001E => Some NG_X448
  | 0x0100 => Some NG_Ffdhe2048
  | 0x0101 => Some NG_Ffdhe3072
  | 0x0102 => Some NG_Ffdhe4096
  | 0x0103 => Some NG_Ffdhe6144
  | 0x0104 => Some NG_Ffdhe8192
  | 0x11EB => Some NG_SecP256r1MLKEM768
  | 0x11EC => Some NG_X25519MLKEM768
  | 0x11ED => Some NG_SecP384r1MLKEM1024
  | _ => None
  end%N.

(** signature_algorithms.rs:11-56 [SignatureScheme]; [as_u16] 100-136 *)
Inductive sig_scheme :=
| SS_RsaPkcs1Sha256
| SS_RsaPkcs1Sha384
| SS_RsaPkcs1Sha512
| SS_EcdsaSecp256r1Sha256
| SS_EcdsaSecp384r1Sha384
| SS_EcdsaSecp521r1Sha512
| SS_RsaPssRsaeSha256
| SS_RsaPssRsaeSha384
| SS_RsaPssRsaeSha512
| SS_Ed25519
| SS_Ed448
| SS_RsaPssPssSha256
| SS_RsaPssPssSha384
| SS_RsaPssPssSha512
| SS_Sha224Ecdsa
| SS_Sha224Rsa
| SS_Sha224Dsa
| SS_RsaPkcs1Sha1
| SS_EcdsaSha1
| SS_Sha256BrainpoolP256r1
| SS_Sha384BrainpoolP384r1
| SS_Sha512BrainpoolP512r1
| SS_MlDsa44
| SS_MlDsa65
| SS_MlDsa87.

(** signature_algorithms.rs:11-56 [SignatureScheme]; [as_u16] 100-136: the code of a value. *)
Definition sig_scheme_code (x : sig_scheme) : N :=
  match x with
  | SS_RsaPkcs1Sha256 => 0x0401
  | SS_RsaPkcs1Sha384 => 0x0501
  | SS_RsaPkcs1Sha512 => 0x0601
  | SS_EcdsaSecp256r1Sha256 => 0x0403
  | SS_EcdsaSecp384r1Sha384 => 0x0503
  | SS_EcdsaSecp521r1Sha512 => 0x0603
  | SS_RsaPssRsaeSha256 => 0x0804
  | SS_RsaPssRsaeSha384 => 0x0805
  | SS_RsaPssRsaeSha512 => 0x0806
  | SS_Ed25519 => 0x0807
  | SS_Ed448 => 0x0808
  | SS_RsaPssPssSha256 => 0x0809
  | SS_RsaPssPssSha384 => 0x080a
  | SS_RsaPssPssSha512 => 0x080b
  | SS_Sha224Ecdsa => 0x0303
  | SS_Sha224Rsa => 0x0301
  | SS_Sha224Dsa => 0x0302
  | SS_RsaPkcs1Sha1 => 0x0201
  | SS_EcdsaSha1 => 0x0203
  | SS_Sha256BrainpoolP256r1 => 0x081A
  | SS_Sha384BrainpoolP384r1 => 0x081B
  | SS_Sha512BrainpoolP512r1 => 0x081C
  | SS_MlDsa44 => 0x0904
  | SS_MlDsa65 => 0x0905
  | SS_MlDsa87 => 0x0906
  end%N.

(** signature_algorithms.rs:59-97 [SignatureScheme::parse], on the u16 value. *)
Definition sig_scheme_of (n : N) : option sig_scheme :=
  match n with
  | 0x0401 => Some SS_RsaPkcs1Sha256
  | 0x0501 => Some SS_RsaPkcs1Sha384
  | 0x0601 => Some SS_RsaPkcs1Sha512
  | 0x0403 => Some SS_EcdsaSecp256r1Sha256
  | 0x0503 => Some SS_EcdsaSecp384r1Sha384
  | 0x0603 => Some SS_EcdsaSecp521r1Sha512
  | 0x0804 => Some SS_RsaPssRsaeSha256
  | 0x0805 => Some SS_RsaPssRsaeSha384
  | 0x0806 => Some SS_RsaPssRsaeSha512
  | 0x0807 => Some SS_Ed25519
  | 0x0808 => Some SS_Ed448
  | 0x0809 => Some SS_RsaPssPssSha256
  | 0x080a => Some SS_RsaPssPssSha384
  | 0x080b => Some SS_RsaPssPssSha512
  | 0x0303 => Some SS_Sha224Ecdsa
  | 0x0301 => Some SS_Sha224Rsa
  | 0x0302 => Some SS_Sha224Dsa
  | 0x0201 => Some SS_RsaPkcs1Sha1
  | 0x0203 => Some SS_EcdsaSha1
  | 0x081A => Some SS_Sha256BrainpoolP256r1
  | 0x081B => Some SS_Sha384BrainpoolP384r1
  | 0x081C => Some SS_Sha512BrainpoolP512r1
  | 0x0904 => Some SS_MlDsa44
  | 0x0905 => Some SS_MlDsa65
  | 0x0906 => Some SS_MlDsa87
  | _ => None
  end%N.

(** max_fragment_length.rs:16-25 [MaxFragmentLength] *)
Inductive max_frag :=
| MFL_Bits9
| MFL_Bits10
| MFL_Bits11
| MFL_Bits12.

(** max_fragment_length.rs:16-25 [MaxFragmentLength]: the code of a value. *)
Definition max_frag_code (x : max_frag) : N :=
  match x with
  | MFL_Bits9 => 1
  | MFL_Bits10 => 2
  | MFL_Bits11 => 3
  | MFL_Bits12 => 4
  end%N.

(** max_fragment_length.rs:28-39 [MaxFragmentLength::parse], on the byte value. *)
Definition max_frag_of (n : N) : option max_frag :=
  match n with
  | 1 => Some MFL_Bits9
  | 2 => Some MFL_Bits10
  | 3 => Some MFL_Bits11
  | 4 => Some MFL_Bits12
  | _ => None
  end%N.

(** psk_key_exchange_modes.rs:10-13 [PskKeyExchangeMode] *)
Inductive psk_mode :=
| PM_PskKe
| PM_PskDheKe.

(** psk_key_exchange_modes.rs:10-13 [PskKeyExchangeMode]: the code of a value. *)
Definition psk_mode_code (x : psk_mode) : N :=
  match x with
  | PM_PskKe => 0
  | PM_PskDheKe => 1
  end%N.

(** psk_key_exchange_modes.rs:15-24 [PskKeyExchangeMode::parse], on the byte value. *)
Definition psk_mode_of (n : N) : option psk_mode :=
  match n with
  | 0 => Some PM_PskKe
  | 1 => Some PM_PskDheKe
  | _ => None
  end%N.
