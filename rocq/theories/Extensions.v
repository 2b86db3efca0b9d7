(** * Model of src/extensions/ *)
From Coq Require Import List NArith Arith Bool.
From Coq.Strings Require Import Byte.
From Verif Require Import Base ParseBuffer Buffer Codes.
Import ListNotations.

(** Payloads of all extensions (extensions/extension_data/*.rs), as one sum type.
    Borrowed slices are byte lists; [NameType] has the single value host_name. *)
Inductive ext_data :=
| XD_ServerNames (names : list bytes)                       (* server_name.rs:68 *)
| XD_ServerNameResponse                                     (* server_name.rs:118 *)
| XD_VersionsCH (versions : list N)                         (* supported_versions.rs:26 *)
| XD_VersionSH (v : N)                                      (* supported_versions.rs:51 *)
| XD_SigAlgs (l : list sig_scheme)                          (* signature_algorithms.rs:141, _cert.rs:11 *)
| XD_Groups (l : list named_group)                          (* supported_groups.rs:83 *)
| XD_KeySharesCH (l : list (named_group * bytes))           (* key_share.rs:25 *)
| XD_KeyShareSH (g : named_group) (opaque : bytes)          (* key_share.rs:11 *)
| XD_PskCH (identities : list bytes) (hash_size : nat)      (* pre_shared_key.rs:10 *)
| XD_PskSH (selected : N)                                   (* pre_shared_key.rs:48 *)
| XD_PskModes (l : list psk_mode)                           (* psk_key_exchange_modes.rs:33 *)
| XD_MaxFrag (m : max_frag)                                 (* max_fragment_length.rs:16 *)
| XD_Alpn (protocols : list bytes)                          (* alpn.rs:19 *)
| XD_Unimpl (data : bytes).                                 (* unimplemented.rs:9 *)

(** ** Parsers of extension payloads *)

Definition of_code {A} (o : option A) : P parse_error A := lift (ok_or PE_InvalidData o).

(** Enum parsers built on the code tables of Codes.v: extensions/mod.rs:41-75,
    supported_groups.rs:33-53, signature_algorithms.rs:59-97,
    max_fragment_length.rs:28-39, psk_key_exchange_modes.rs:15-24. *)
Definition parse_ext_type : P parse_error ext_type := n <- read_u16 ;; of_code (ext_type_of n).
Definition parse_named_group : P parse_error named_group := n <- read_u16 ;; of_code (named_group_of n).
Definition parse_sig_scheme : P parse_error sig_scheme := n <- read_u16 ;; of_code (sig_scheme_of n).
Definition parse_max_frag : P parse_error max_frag := b <- read_u8 ;; of_code (max_frag_of (Byte.to_N b)).
Definition parse_psk_mode : P parse_error psk_mode := b <- read_u8 ;; of_code (psk_mode_of (Byte.to_N b)).

(** server_name.rs:17-25 [NameType::parse]. *)
Definition parse_name_type : P parse_error unit :=
  b <- read_u8 ;;
  if (Byte.to_N b =? 0)%N then ret tt else fail PE_InvalidData.

(** [u8::is_ascii] on a slice. *)
Definition is_ascii (l : bytes) : bool := forallb (fun b => Byte.to_N b <? 128)%N l.

(** server_name.rs:40-56 [ServerName::parse] (from_utf8 cannot fail on ASCII). *)
Definition parse_server_name : P parse_error bytes :=
  parse_name_type ;;;
  n <- read_u16 ;;
  s <- pb_slice (N.to_nat n) ;;
  if is_ascii (pb_as_slice s) then ret (pb_as_slice s) else fail PE_InvalidData.

(** server_name.rs:91-97 [ServerNameList::<N>::parse]. *)
Definition parse_server_names (cap : nat) : P parse_error ext_data :=
  n <- read_u16 ;;
  l <- read_list cap (N.to_nat n) parse_server_name ;;
  ret (XD_ServerNames l).

(** server_name.rs:121-127 [ServerNameResponse::parse]. *)
Definition parse_server_name_response : P parse_error ext_data :=
  e <- gets pb_is_empty ;;
  if e then ret XD_ServerNameResponse else fail PE_InvalidData.

(** supported_versions.rs:31-37 [SupportedVersionsClientHello::<N>::parse]. *)
Definition parse_versions_ch (cap : nat) : P parse_error ext_data :=
  n <- read_u8 ;;
  l <- read_list cap (N.to_nat (Byte.to_N n)) read_u16 ;;
  ret (XD_VersionsCH l).

(** supported_versions.rs:56-60 [SupportedVersionsServerHello::parse]. *)
Definition parse_version_sh : P parse_error ext_data :=
  v <- read_u16 ;; ret (XD_VersionSH v).

(** signature_algorithms.rs:146-153 and signature_algorithms_cert.rs:16-23. *)
Definition parse_sig_algs (cap : nat) : P parse_error ext_data :=
  n <- read_u16 ;;
  l <- read_list cap (N.to_nat n) parse_sig_scheme ;;
  ret (XD_SigAlgs l).

(** supported_groups.rs:88-94 [SupportedGroups::<N>::parse]. *)
Definition parse_groups (cap : nat) : P parse_error ext_data :=
  n <- read_u16 ;;
  l <- read_list cap (N.to_nat n) parse_named_group ;;
  ret (XD_Groups l).

(** key_share.rs:74-84 [KeyShareEntry::parse]. *)
Definition parse_key_share_entry : P parse_error (named_group * bytes) :=
  g <- parse_named_group ;;
  n <- read_u16 ;;
  o <- pb_slice (N.to_nat n) ;;
  ret (g, pb_as_slice o).

(** key_share.rs:14-16 [KeyShareServerHello::parse]. *)
Definition parse_key_share_sh : P parse_error ext_data :=
  '(g, o) <- parse_key_share_entry ;; ret (XD_KeyShareSH g o).

(** key_share.rs:30-35 [KeyShareClientHello::<N>::parse]. *)
Definition parse_key_shares_ch (cap : nat) : P parse_error ext_data :=
  n <- read_u16 ;;
  l <- read_list cap (N.to_nat n) parse_key_share_entry ;;
  ret (XD_KeySharesCH l).

(** pre_shared_key.rs:16-18 [PreSharedKeyClientHello::parse]: unimplemented!(). *)
Definition parse_psk_ch : P parse_error ext_data := panic PUnimplemented.

(** pre_shared_key.rs:53-57 [PreSharedKeyServerHello::parse]. *)
Definition parse_psk_sh : P parse_error ext_data := v <- read_u16 ;; ret (XD_PskSH v).

(** psk_key_exchange_modes.rs:37-43 [PskKeyExchangeModes::<N>::parse]. *)
Definition parse_psk_modes (cap : nat) : P parse_error ext_data :=
  n <- read_u8 ;;
  l <- read_list cap (N.to_nat (Byte.to_N n)) parse_psk_mode ;;
  ret (XD_PskModes l).

Definition parse_max_frag_ext : P parse_error ext_data := m <- parse_max_frag ;; ret (XD_MaxFrag m).

(** alpn.rs:34-40, the validation loop. *)
Fixpoint alpn_loop (fuel : nat) (d : pbuf) : outcome parse_error unit :=
  if pb_is_empty d then Ok tt
  else
    match fuel with
    | O => Diverge
    | S fuel' =>
        match
          (n <- read_u8 ;;
           if (Byte.to_N n =? 0)%N then fail PE_InvalidData
           else pb_slice (N.to_nat (Byte.to_N n)) ;;; ret tt) d
        with
        | (Ok _, d') => alpn_loop fuel' d'
        | (Err e, _) => Err e
        | (Panic x, _) => Panic x
        | (Diverge, _) => Diverge
        | (Cancelled, _) => Cancelled
        end
    end.

(** alpn.rs:24-43 [AlpnProtocolNameList::parse]: validates, stores no names. *)
Definition parse_alpn : P parse_error ext_data :=
  n <- read_u16 ;;
  d <- pb_slice (N.to_nat n) ;;
  lift (alpn_loop (S (N.to_nat n)) d) ;;;
  ret (XD_Alpn []).

(** unimplemented.rs:15-19 [Unimplemented::parse]. *)
Definition parse_unimpl : P parse_error ext_data := s <- gets pb_as_slice ;; ret (XD_Unimpl s).

(** ** Extension groups (extensions/messages.rs) *)

(** Which extension types a message allows and how their payload is parsed. *)
Definition ext_group := ext_type -> option (P parse_error ext_data).

(** messages.rs:19-44 [ClientHelloExtension]. *)
Definition grp_client_hello : ext_group := fun t =>
  match t with
  | ET_ServerName => Some (parse_server_names 1)
  | ET_SupportedVersions => Some (parse_versions_ch 1)
  | ET_SignatureAlgorithms => Some (parse_sig_algs 25)
  | ET_SupportedGroups => Some (parse_groups 13)
  | ET_KeyShare => Some (parse_key_shares_ch 1)
  | ET_PreSharedKey => Some parse_psk_ch
  | ET_PskKeyExchangeModes => Some (parse_psk_modes 4)
  | ET_SignatureAlgorithmsCert => Some (parse_sig_algs 25)
  | ET_MaxFragmentLength => Some parse_max_frag_ext
  | ET_ApplicationLayerProtocolNegotiation => Some parse_alpn
  | ET_StatusRequest | ET_UseSrtp | ET_Heartbeat | ET_SignedCertificateTimestamp
  | ET_ClientCertificateType | ET_ServerCertificateType | ET_Padding | ET_EarlyData
  | ET_Cookie | ET_CertificateAuthorities | ET_OidFilters | ET_PostHandshakeAuth =>
      Some parse_unimpl
  | _ => None
  end.

(** messages.rs:47-54 [ServerHelloExtension]. *)
Definition grp_server_hello : ext_group := fun t =>
  match t with
  | ET_KeyShare => Some parse_key_share_sh
  | ET_PreSharedKey => Some parse_psk_sh
  | ET_Cookie => Some parse_unimpl
  | ET_SupportedVersions => Some parse_version_sh
  | _ => None
  end.

(** messages.rs:57-69 [EncryptedExtensionsExtension]. *)
Definition grp_encrypted_ext : ext_group := fun t =>
  match t with
  | ET_ServerName => Some parse_server_name_response
  | ET_MaxFragmentLength => Some parse_max_frag_ext
  | ET_SupportedGroups => Some (parse_groups 13)
  | ET_ApplicationLayerProtocolNegotiation => Some parse_alpn
  | ET_UseSrtp | ET_Heartbeat | ET_ClientCertificateType | ET_ServerCertificateType
  | ET_EarlyData => Some parse_unimpl
  | _ => None
  end.

(** messages.rs:72-82 [CertificateRequestExtension]. *)
Definition grp_cert_request : ext_group := fun t =>
  match t with
  | ET_SignatureAlgorithms => Some (parse_sig_algs 25)
  | ET_StatusRequest | ET_SignedCertificateTimestamp | ET_CertificateAuthorities
  | ET_OidFilters | ET_SignatureAlgorithmsCert | ET_CompressCertificate => Some parse_unimpl
  | _ => None
  end.

(** messages.rs:85-90 [CertificateExtension]. *)
Definition grp_certificate : ext_group := fun t =>
  match t with
  | ET_StatusRequest | ET_SignedCertificateTimestamp => Some parse_unimpl
  | _ => None
  end.

(** messages.rs:93-97 [NewSessionTicketExtension]. *)
Definition grp_new_session_ticket : ext_group := fun t =>
  match t with
  | ET_EarlyData => Some parse_unimpl
  | _ => None
  end.

(** An extension value: the enum variant (= its type) and its payload. *)
Record extension := mk_ext { x_type : ext_type; x_data : ext_data }.

(** extension_group_macro.rs:28-65 [parse]. *)
Definition ext_parse (g : ext_group) : P tls_error extension :=
  ety <- attempt (pq parse_ext_type) ;;
  n <- map_err (fun _ => DecodeError) read_u16 ;;
  d <- map_err (fun _ => DecodeError) (pb_slice (N.to_nat n)) ;;
  match ety with
  | inr (ParseErr PE_InvalidData) => fail UnknownExtensionType
  | inr _ => fail DecodeError
  | inl t =>
      match g t with
      | Some parse_data =>
          (* parses the local [ext_data] slice; its final position is discarded *)
          let '(o, _) := parse_data d in
          x <- lift (omap_err (fun _ => DecodeError) o) ;;
          ret (mk_ext t x)
      | None => fail (AbortHandshake AL_Fatal AD_IllegalParameter)
      end
  end.

(** extension_group_macro.rs:78-91, the loop of [parse_vector]. *)
Fixpoint ext_vector_loop (g : ext_group) (fuel cap : nat) (acc : list extension) (d : pbuf)
  : outcome tls_error (list extension) :=
  if pb_is_empty d then Ok acc
  else
    match fuel with
    | O => Diverge
    | S fuel' =>
        match ext_parse g d with
        | (Ok e, d') =>
            if length acc <? cap then ext_vector_loop g fuel' cap (acc ++ [e]) d'
            else Err DecodeError
        | (Err UnknownExtensionType, d') => ext_vector_loop g fuel' cap acc d'
        | (Err e, _) => Err e
        | (Panic x, _) => Panic x
        | (Diverge, _) => Diverge
        | (Cancelled, _) => Cancelled
        end
    end.

(** extension_group_macro.rs:67-95 [parse_vector::<cap>]. *)
Definition ext_parse_vector (g : ext_group) (cap : nat) : P tls_error (list extension) :=
  n <- map_err (fun _ => InvalidExtensionsLength) read_u16 ;;
  d <- pq (pb_slice (N.to_nat n)) ;;
  lift (ext_vector_loop g (S (N.to_nat n)) cap [] d).

(** ** Encoders of extension payloads *)

Definition enc_err {S A} (m : M S tls_error A) : M S tls_error A := map_err (fun _ => EncodeError) m.

(** server_name.rs:58-63 [ServerName::encode] with 27-29 [NameType::encode]. *)
Definition enc_server_name (name : bytes) : W unit :=
  enc_err (cb_push x00) ;;;
  enc_err (with_u16_length (cb_extend name)).

(** key_share.rs:86-91 [KeyShareEntry::encode]; supported_groups.rs:75-78. *)
Definition enc_named_group (g : named_group) : W unit := enc_err (cb_push_u16 (named_group_code g)).
Definition enc_key_share_entry (e : named_group * bytes) : W unit :=
  enc_named_group (fst e) ;;;
  enc_err (with_u16_length (cb_extend (snd e))).

(** pre_shared_key.rs:20-43 [PreSharedKeyClientHello::encode]. *)
Definition enc_psk_ch (identities : list bytes) (hash_size : nat) : W unit :=
  enc_err (with_u16_length
    (for_each identities (fun identity =>
       enc_err (with_u16_length (cb_extend identity)) ;;;
       enc_err (cb_push_u32 0)))) ;;;
  let binders_len := (1 + hash_size) * length identities in
  enc_err (cb_push_u16 (N.of_nat binders_len mod 65536)) ;;;
  for_each (repeat tt binders_len) (fun _ => enc_err (cb_push x00)).

(** [encode] of every payload (extension_data/*.rs). *)
Definition enc_ext_data (x : ext_data) : W unit :=
  match x with
  | XD_ServerNames l => with_u16_length (for_each l enc_server_name)          (* server_name.rs:99 *)
  | XD_ServerNameResponse => ret tt                                           (* server_name.rs:130 *)
  | XD_VersionsCH l =>                                                        (* supported_versions.rs:39 *)
      with_u8_length (for_each l (fun v => enc_err (cb_push_u16 v)))
  | XD_VersionSH v => enc_err (cb_push_u16 v)                                 (* supported_versions.rs:62 *)
  | XD_SigAlgs l =>                                                           (* signature_algorithms.rs:155 *)
      with_u16_length (for_each l (fun a => enc_err (cb_push_u16 (sig_scheme_code a))))
  | XD_Groups l => with_u16_length (for_each l enc_named_group)               (* supported_groups.rs:96 *)
  | XD_KeySharesCH l => with_u16_length (for_each l enc_key_share_entry)      (* key_share.rs:37 *)
  | XD_KeyShareSH g o => enc_key_share_entry (g, o)                           (* key_share.rs:18 *)
  | XD_PskCH ids hs => enc_psk_ch ids hs                                      (* pre_shared_key.rs:20 *)
  | XD_PskSH v => enc_err (cb_push_u16 v)                                     (* pre_shared_key.rs:59 *)
  | XD_PskModes l =>                                                          (* psk_key_exchange_modes.rs:45 *)
      with_u8_length (for_each l (fun m => enc_err (cb_push (b8 (psk_mode_code m)))))
  | XD_MaxFrag m => enc_err (cb_push (b8 (max_frag_code m)))                  (* max_fragment_length.rs:41 *)
  | XD_Alpn l =>                                                              (* alpn.rs:45-55 *)
      with_u16_length (for_each l (fun p =>
        enc_err (cb_push (b8 (N.of_nat (length p)))) ;;; cb_extend p))
  | XD_Unimpl d => cb_extend d                                                (* unimplemented.rs:21 *)
  end.

(** extension_group_macro.rs:20-26 [encode]; extensions/mod.rs:77-79. *)
Definition ext_encode (e : extension) : W unit :=
  enc_err (cb_push_u16 (ext_type_code (x_type e))) ;;;
  with_u16_length (enc_ext_data (x_data e)).
