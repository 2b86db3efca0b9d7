(** * Model of src/handshake/ : messages, their encoders and parsers *)
From Coq Require Import List NArith Arith Bool.
From Coq.Strings Require Import Byte.
From Verif Require Import Base ParseBuffer Buffer Codes Extensions Crypto KeySchedule Config.
Import ListNotations.

(** ** Message types *)

(** certificate.rs:66-69 [CertificateEntryRef]. *)
Inductive cert_entry := CE_X509 (d : bytes) | CE_RawPublicKey (d : bytes).

(** certificate.rs:9-14 [CertificateRef] (entries: Vec<_, 16>). *)
Record cert_ref := mk_cert { ce_raw : bytes; ce_context : bytes; ce_entries : list cert_entry }.

(** certificate.rs:17-23 [CertificateRef::with_context]; 25-30 [add] (capacity 16). *)
Definition cert_with_context (ctx : bytes) : cert_ref := mk_cert [] ctx [].
Definition cert_add (c : cert_ref) (e : cert_entry) : outcome tls_error cert_ref :=
  if length (ce_entries c) <? 16
  then Ok (mk_cert (ce_raw c) (ce_context c) (ce_entries c ++ [e]))
  else Err InsufficientSpace.

(** certificate_verify.rs:9-12 [CertificateVerifyRef] and 45-48 [CertificateVerify]. *)
Record cert_verify := mk_cv { cv_scheme : sig_scheme; cv_sig : bytes }.

(** finished.rs:9-12 [Finished]. *)
Record finished := mk_fin { f_verify : bytes; f_hash : option bytes }.

(** client_hello.rs:27-35 [ClientHello] (random: [u8; 32]). *)
Record client_hello := mk_ch { ch_config : tls_config; ch_random : bytes; ch_secret : bytes }.

(** handshake/mod.rs:70-78 [ClientHandshake]. *)
Inductive client_handshake :=
| CH_Cert (c : cert_ref)
| CH_CertVerify (v : cert_verify)
| CH_Hello (h : client_hello)
| CH_Finished (f : finished).

(** handshake/mod.rs:130-138 [ServerHandshake]; messages whose content the client
    drops (EncryptedExtensions, NewSessionTicket) keep no data, as in Rust. *)
Inductive server_handshake :=
| SH_ServerHello (exts : list extension)
| SH_EncryptedExtensions
| SH_NewSessionTicket
| SH_Certificate (c : cert_ref)
| SH_CertificateRequest (context : bytes)
| SH_CertificateVerify (v : cert_verify)
| SH_Finished (f : finished).

(** ** Parsers *)

(** server_hello.rs:19-54 [ServerHello::parse]. *)
Definition parse_server_hello : P tls_error (list extension) :=
  map_err (fun _ => InvalidHandshake) read_u16 ;;;
  pq (pb_fill 32) ;;;
  sl <- map_err (fun _ => InvalidSessionIdLength) read_u8 ;;
  map_err (fun _ => InvalidSessionIdLength) (pb_slice (N.to_nat (Byte.to_N sl))) ;;;
  map_err (fun _ => InvalidCipherSuite) (n <- read_u16 ;; of_code (cipher_suite_of n)) ;;;
  pq read_u8 ;;;
  ext_parse_vector grp_server_hello 4.

(** server_hello.rs:56-64 [key_share]: the first key_share extension. *)
Fixpoint sh_key_share (l : list extension) : option (named_group * bytes) :=
  match l with
  | [] => None
  | e :: r => match x_data e with XD_KeyShareSH g o => Some (g, o) | _ => sh_key_share r end
  end.

(** server_hello.rs:66-70 [calculate_shared_secret]. *)
Definition sh_shared_secret (C : crypto) (l : list extension) (secret : bytes) : option bytes :=
  match sh_key_share l with
  | Some (_, o) => c_dh C secret o
  | None => None
  end.

(** encrypted_extensions.rs:15-18. *)
Definition parse_encrypted_extensions : P tls_error unit :=
  ext_parse_vector grp_encrypted_ext 16 ;;; ret tt.

(** new_session_ticket.rs:14-32. *)
Definition parse_new_session_ticket : P tls_error unit :=
  pq read_u32 ;;;
  pq read_u32 ;;;
  nl <- pq read_u8 ;;
  map_err (fun _ => InvalidNonceLength) (pb_slice (N.to_nat (Byte.to_N nl))) ;;;
  tl <- pq read_u16 ;;
  map_err (fun _ => InvalidTicketLength) (pb_slice (N.to_nat tl)) ;;;
  ext_parse_vector grp_new_session_ticket 1 ;;;
  ret tt.

(** certificate.rs:72-86 [CertificateEntryRef::parse]. *)
Definition parse_cert_entry : P tls_error cert_entry :=
  n <- map_err (fun _ => InvalidCertificateEntry) read_u24 ;;
  c <- map_err (fun _ => InvalidCertificateEntry) (pb_slice (N.to_nat n)) ;;
  ext_parse_vector grp_certificate 2 ;;;
  ret (CE_X509 (pb_as_slice c)).

(** certificate.rs:88-100 [CertificateEntryRef::parse_vector::<cap>], on the local
    buffer [d] (its final position is not used by any caller). *)
Fixpoint cert_entries_loop (fuel cap : nat) (acc : list cert_entry) (d : pbuf)
  : outcome tls_error (list cert_entry) :=
  if pb_is_empty d then Ok acc
  else
    match fuel with
    | O => Diverge
    | S fuel' =>
        match parse_cert_entry d with
        | (Ok e, d') =>
            if length acc <? cap then cert_entries_loop fuel' cap (acc ++ [e]) d'
            else Err DecodeError
        | (Err e, _) => Err e
        | (Panic x, _) => Panic x
        | (Diverge, _) => Diverge
        | (Cancelled, _) => Cancelled
        end
    end.
Definition parse_cert_entries (cap : nat) (d : pbuf) : outcome tls_error (list cert_entry) :=
  cert_entries_loop (S (length (pb_buf d))) cap [] d.

(** certificate.rs:32-49 [CertificateRef::parse]. *)
Definition parse_certificate : P tls_error cert_ref :=
  cl <- map_err (fun _ => InvalidCertificate) read_u8 ;;
  ctx <- map_err (fun _ => InvalidCertificate) (pb_slice (N.to_nat (Byte.to_N cl))) ;;
  el <- map_err (fun _ => InvalidCertificate) read_u24 ;;
  raw <- map_err (fun _ => InvalidCertificate) (pb_slice (N.to_nat el)) ;;
  es <- lift (parse_cert_entries 16 raw) ;;
  ret (mk_cert (pb_as_slice raw) (pb_as_slice ctx) es).

(** certificate_request.rs:13-28 [CertificateRequestRef::parse]. *)
Definition parse_certificate_request : P tls_error bytes :=
  cl <- map_err (fun _ => InvalidCertificateRequest) read_u8 ;;
  ctx <- map_err (fun _ => InvalidCertificateRequest) (pb_slice (N.to_nat (Byte.to_N cl))) ;;
  ext_parse_vector grp_cert_request 6 ;;;
  ret (pb_as_slice ctx).

(** certificate_request.rs:37-50 [CertificateRequest::try_from] (Vec<u8, 256>). *)
Definition cert_request_try_from (ctx : bytes) : outcome tls_error bytes :=
  if length ctx <=? 256 then Ok ctx else Err InsufficientSpace.

(** certificate_verify.rs:15-28 [CertificateVerifyRef::parse]. *)
Definition parse_certificate_verify : P tls_error cert_verify :=
  s <- map_err (fun _ => InvalidSignatureScheme) parse_sig_scheme ;;
  n <- map_err (fun _ => InvalidSignature) read_u16 ;;
  sig <- map_err (fun _ => InvalidSignature) (pb_slice (N.to_nat n)) ;;
  ret (mk_cv s (pb_as_slice sig)).

(** finished.rs:30-43 [Finished::parse]. *)
Definition parse_finished (C : crypto) : P tls_error finished :=
  v <- pq (pb_fill (hash_len C)) ;; ret (mk_fin v None).

(** handshake/mod.rs:202-240 [ServerHandshake::parse]; the u24 length is read and,
    as in Rust, not used. *)
Definition parse_server_handshake (C : crypto) : P tls_error server_handshake :=
  t <- map_err (fun _ => InvalidHandshake)
         (b <- read_u8 ;; of_code (handshake_type_of (Byte.to_N b))) ;;
  _content_len <- map_err (fun _ => InvalidHandshake) read_u24 ;;
  match t with
  | HT_ServerHello => x <- parse_server_hello ;; ret (SH_ServerHello x)
  | HT_NewSessionTicket => parse_new_session_ticket ;;; ret SH_NewSessionTicket
  | HT_EncryptedExtensions => parse_encrypted_extensions ;;; ret SH_EncryptedExtensions
  | HT_Certificate => x <- parse_certificate ;; ret (SH_Certificate x)
  | HT_CertificateRequest => x <- parse_certificate_request ;; ret (SH_CertificateRequest x)
  | HT_CertificateVerify => x <- parse_certificate_verify ;; ret (SH_CertificateVerify x)
  | HT_Finished => x <- parse_finished C ;; ret (SH_Finished x)
  | _ => fail Unimplemented
  end.

(** handshake/mod.rs:185-200 [ServerHandshake::read]: parses one message and adds
    its bytes to the transcript [tr] (returned; unchanged on error). *)
Definition read_server_handshake (C : crypto) (tr : bytes)
  : P tls_error (server_handshake * bytes) :=
  start <- gets pb_offset ;;
  h <- parse_server_handshake C ;;
  stop <- gets pb_offset ;;
  all <- gets pb_as_slice ;;
  msg <- lift (slice_rng all start stop) ;;
  ret (match h with
       | SH_Finished f => SH_Finished (mk_fin (f_verify f) (Some (c_hash C tr)))
       | _ => h
       end, tr ++ msg).

(** ** Encoders *)

(** The extensions of the ClientHello in order (client_hello.rs:83-145). *)
Definition ch_extensions (C : crypto) (h : client_hello) : list extension :=
  let cfg := ch_config h in
  [mk_ext ET_SupportedVersions (XD_VersionsCH [0x0304%N]);
   mk_ext ET_SignatureAlgorithms (XD_SigAlgs (cfg_schemes cfg))] ++
  match cfg_max_frag cfg with
  | Some m => [mk_ext ET_MaxFragmentLength (XD_MaxFrag m)] | None => [] end ++
  [mk_ext ET_SupportedGroups (XD_Groups (cfg_groups cfg));
   mk_ext ET_PskKeyExchangeModes (XD_PskModes [PM_PskDheKe]);
   mk_ext ET_KeyShare (XD_KeySharesCH [(NG_Secp256r1, c_pub C (ch_secret h))])] ++
  match cfg_server_name cfg with
  | Some n => [mk_ext ET_ServerName (XD_ServerNames [n])] | None => [] end ++
  match cfg_alpn cfg with
  | Some p => [mk_ext ET_ApplicationLayerProtocolNegotiation (XD_Alpn p)] | None => [] end ++
  match cfg_psk cfg with
  | Some (_, ids) => [mk_ext ET_PreSharedKey (XD_PskCH ids (hash_len C))] | None => [] end.

(** client_hello.rs:56-149 [ClientHello::encode]. *)
Definition enc_client_hello (C : crypto) (h : client_hello) : W unit :=
  enc_err (cb_push_u16 0x0303) ;;;
  enc_err (cb_extend (ch_random h)) ;;;
  enc_err (cb_push x00) ;;;
  enc_err (cb_push_u16 2) ;;;
  enc_err (cb_push_u16 (code_point C)) ;;;
  enc_err (cb_push x01) ;;;
  enc_err (cb_push x00) ;;;
  with_u16_length (for_each (ch_extensions C h) ext_encode).

(** certificate.rs:102-116 [CertificateEntryRef::encode]. *)
Definition enc_cert_entry (e : cert_entry) : W unit :=
  match e with
  | CE_RawPublicKey _ => panic PUnimplemented
  | CE_X509 d => with_u24_length (cb_extend d)
  end ;;;
  cb_push_u16 0.

(** certificate.rs:51-61 [CertificateRef::encode]. *)
Definition enc_certificate (c : cert_ref) : W unit :=
  with_u8_length (cb_extend (ce_context c)) ;;;
  with_u24_length (for_each (ce_entries c) enc_cert_entry).

(** certificate_verify.rs:51-55 [CertificateVerify::encode]. *)
Definition enc_certificate_verify (v : cert_verify) : W unit :=
  cb_push_u16 (sig_scheme_code (cv_scheme v)) ;;;
  with_u16_length (cb_extend (cv_sig v)).

(** finished.rs:45-51 [Finished::encode]. *)
Definition enc_finished (f : finished) : W unit := enc_err (cb_extend (f_verify f)).

(** binder.rs:26-33 [PskBinder::encode]. *)
Definition enc_binder (verify : bytes) : W unit :=
  enc_err (cb_push (b8 (N.of_nat (length verify)))) ;;;
  enc_err (cb_extend verify).

(** handshake/mod.rs:82-89 [handshake_type]. *)
Definition client_handshake_type (h : client_handshake) : handshake_type :=
  match h with
  | CH_Hello _ => HT_ClientHello
  | CH_Finished _ => HT_Finished
  | CH_Cert _ => HT_Certificate
  | CH_CertVerify _ => HT_CertificateVerify
  end.

(** handshake/mod.rs:91-105 [encode_inner], [encode]. *)
Definition enc_client_handshake (C : crypto) (h : client_handshake) : W unit :=
  enc_err (cb_push (b8 (handshake_type_code (client_handshake_type h)))) ;;;
  with_u24_length
    (match h with
     | CH_Hello x => enc_client_hello C x
     | CH_Finished x => enc_finished x
     | CH_Cert x => enc_certificate x
     | CH_CertVerify x => enc_certificate_verify x
     end).

(** client_hello.rs:176-179: one binder per identity, written at the start of [c]. *)
Fixpoint write_binders (C : crypto) (w : wks) (tr : bytes) (n : nat) : W unit :=
  match n with
  | O => ret tt
  | S n' =>
      b <- lift (create_psk_binder C w tr) ;;
      enc_binder b ;;;
      write_binders C w tr n'
  end.

(** client_hello.rs:151-187 [ClientHello::finalize] on the encoded message
    [enc_buf]; returns the (possibly patched) message and the new transcript. *)
Definition finalize_client_hello (C : crypto) (h : client_hello) (w : wks) (enc_buf tr : bytes)
  : outcome tls_error (bytes * bytes) :=
  match cfg_psk (ch_config h) with
  | Some (_, ids) =>
      let binders_len := length ids * (1 + hash_len C) in
      binders_pos <-- usize_sub (length enc_buf) binders_len ;;
      p2 <-- usize_sub binders_pos 2 ;;
      pre <-- slice_rng enc_buf 0 p2 ;;
      let tr1 := tr ++ pre in
      tail <-- slice_from enc_buf binders_pos ;;
      match write_binders C w tr1 (length ids) (cb_wrap tail) with
      | (Ok _, c) =>
          let enc' := firstn binders_pos enc_buf ++ cb_buf c in
          rest <-- slice_from enc' p2 ;;
          Ok (enc', tr1 ++ rest)
      | (Err e, _) => Err e
      | (Panic x, _) => Panic x
      | (Diverge, _) => Diverge
      | (Cancelled, _) => Cancelled
      end
  | None => Ok (enc_buf, tr ++ enc_buf)
  end.

(** handshake/mod.rs:107-120 [ClientHandshake::finalize] (unencrypted messages). *)
Definition finalize_client_handshake (C : crypto) (h : client_handshake) (w : wks)
    (enc_buf tr : bytes) : outcome tls_error (bytes * bytes) :=
  match h with
  | CH_Hello x => finalize_client_hello C x w enc_buf tr
  | _ => Ok (enc_buf, tr ++ enc_buf)
  end.
(* handshake/mod.rs:122-126 [finalize_encrypted] appends the message bytes to the
   transcript; it is inlined in WriteBuffer.finish_record. *)

(** certificate.rs:132-135 [Certificate<N>] (owned) and its conversions 143-174. *)
Record cert_owned := mk_owned { co_context : bytes; co_entries_data : bytes }.
Definition cert_to_owned (n : nat) (c : cert_ref) : outcome tls_error cert_owned :=
  if length (ce_context c) <=? 256 then
    if length (ce_raw c) <=? n then Ok (mk_owned (ce_context c) (ce_raw c)) else Err OutOfMemory
  else Err OutOfMemory.
Definition cert_from_owned (c : cert_owned) : outcome tls_error cert_ref :=
  es <-- parse_cert_entries 16 (pb_new (co_entries_data c)) ;;
  Ok (mk_cert (co_entries_data c) (co_context c) es).
