(** * Specification: encoding and reading back *)
From Coq Require Import List NArith Arith.
From Coq.Strings Require Import Byte.
From Verif Require Import Base Buffer ParseBuffer Codes SpecCodes Extensions.
Import ListNotations.

(** [writes m w]: run on any empty buffer with room for it, the encoder [m] succeeds and leaves
    exactly the bytes [w]. *)
Definition writes (m : W unit) (w : bytes) : Prop :=
  forall buf, length w <= length buf ->
    m (mk_cbuf buf 0 0) = (Ok tt, mk_cbuf (w ++ skipn (length w) buf) 0 (length w)).

(** [reads m w x]: wherever [w] lies in a buffer, the parser [m] started there returns [x] and stops
    right behind [w]. *)
Definition reads {E A} (m : P E A) (w : bytes) (x : A) : Prop :=
  forall pre post, m (mk_pbuf (length pre) (pre ++ w ++ post)) = (Ok x, mk_pbuf (length (pre ++ w)) (pre ++ w ++ post)).

(** The messages with extensions: the ClientHello and those of the server. *)
Inductive carrier := InClientHello | From (m : server_message).

(** Types whose payload the crate keeps as it is. *)
Definition opaque_types (c : carrier) : list ext_type :=
  match c with
  | InClientHello => [ET_StatusRequest; ET_UseSrtp; ET_Heartbeat; ET_SignedCertificateTimestamp; ET_ClientCertificateType;
      ET_ServerCertificateType; ET_Padding; ET_EarlyData; ET_Cookie; ET_CertificateAuthorities; ET_OidFilters; ET_PostHandshakeAuth]
  | From InServerHello => [ET_Cookie]
  | From InEncryptedExtensions => [ET_UseSrtp; ET_Heartbeat; ET_ClientCertificateType; ET_ServerCertificateType; ET_EarlyData]
  | From InCertificateRequest => [ET_StatusRequest; ET_SignedCertificateTimestamp; ET_CertificateAuthorities; ET_OidFilters;
      ET_SignatureAlgorithmsCert; ET_CompressCertificate]
  | From InCertificate => [ET_StatusRequest; ET_SignedCertificateTimestamp]
  | From InNewSessionTicket => [ET_EarlyData]
  end.

(** [sayable c t x]: [x] is a payload of an extension of type [t] in the message [c], within the
    capacities of the crate's vectors (1 server name, 1 version, 25 schemes, 13 groups, 1 key share, 4
    modes) and the ranges of RFC 8446, RFC 6066 and RFC 7301. *)
Inductive sayable : carrier -> ext_type -> ext_data -> Prop :=
| y_names l : length l <= 1 -> Forall (Forall (fun b => (Byte.to_N b < 128)%N)) l ->
    sayable InClientHello ET_ServerName (XD_ServerNames l)
| y_versions l : length l <= 1 -> Forall (fun v => (v < 65536)%N) l -> sayable InClientHello ET_SupportedVersions (XD_VersionsCH l)
| y_schemes c t l : length l <= 25 ->
    In (c, t) [(InClientHello, ET_SignatureAlgorithms); (InClientHello, ET_SignatureAlgorithmsCert); (From InCertificateRequest, ET_SignatureAlgorithms)] ->
    sayable c t (XD_SigAlgs l)
| y_groups c l : length l <= 13 -> In c [InClientHello; From InEncryptedExtensions] -> sayable c ET_SupportedGroups (XD_Groups l)
| y_shares l : length l <= 1 -> sayable InClientHello ET_KeyShare (XD_KeySharesCH l)
| y_modes l : length l <= 4 -> sayable InClientHello ET_PskKeyExchangeModes (XD_PskModes l)
| y_frag c m : In c [InClientHello; From InEncryptedExtensions] -> sayable c ET_MaxFragmentLength (XD_MaxFrag m)
| y_alpn c l : In c [InClientHello; From InEncryptedExtensions] -> Forall (fun n => 1 <= length n <= 255) l ->
    sayable c ET_ApplicationLayerProtocolNegotiation (XD_Alpn l)
| y_share g k : sayable (From InServerHello) ET_KeyShare (XD_KeyShareSH g k)
| y_version v : (v < 65536)%N -> sayable (From InServerHello) ET_SupportedVersions (XD_VersionSH v)
| y_psk n : (n < 65536)%N -> sayable (From InServerHello) ET_PreSharedKey (XD_PskSH n)
| y_answer : sayable (From InEncryptedExtensions) ET_ServerName XD_ServerNameResponse
| y_other c t b : In t (opaque_types c) -> sayable c t (XD_Unimpl b).

(** What the parser gives for it: the same, but it keeps no protocol names. *)
Definition as_read (e : extension) : extension :=
  mk_ext (x_type e) (match x_data e with XD_Alpn _ => XD_Alpn [] | d => d end).
