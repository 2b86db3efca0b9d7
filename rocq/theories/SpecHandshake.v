(** * Specification vocabulary for the handshake: the server's messages, its flight, and the
    verifier's part (RFC 8446 sections 4 and 7) *)
From Coq Require Import String List NArith Arith Bool.
From Coq.Strings Require Import Byte.
From Verif Require Import Base Codes Crypto Config Handshake Record Transport RecordReader KeySchedule Connection Api
  SpecWire SpecCodes SpecMessages SpecKeys SpecRecord SpecSend SpecRead.
Import ListNotations.
Local Open Scope list_scope.

(** ** Messages *)

Inductive smsg :=
| M_ServerHello (suite : N) (items : list ext_item)
| M_NewSessionTicket
| M_EncryptedExtensions (items : list ext_item)
| M_Certificate (context raw : bytes) (certs : list bytes)
| M_CertificateRequest (context : bytes) (items : list ext_item)
| M_CertificateVerify (scheme : N) (signature : bytes)
| M_Finished (verify_data : bytes).

(** The type byte (section 4). *)
Definition smsg_type (m : smsg) : N :=
  match m with
  | M_ServerHello _ _ => 2
  | M_NewSessionTicket => 4
  | M_EncryptedExtensions _ => 8
  | M_Certificate _ _ _ => 11
  | M_CertificateRequest _ _ => 13
  | M_CertificateVerify _ _ => 15
  | M_Finished _ => 20
  end%N.

(** One entry of a certificate list (4.4.2). *)
Definition entry_wire (e : bytes * list ext_item) : bytes := vec 3 (fst e) ++ ext_block (snd e).

(** The body of a message (4.1.3, 4.6.1, 4.3.1, 4.4.2, 4.3.2, 4.4.3, 4.4.4). *)
Definition smsg_body (C : crypto) (m : smsg) (body : bytes) : Prop :=
  match m with
  | M_ServerHello suite items =>
      exists version random session compression,
        frame_ok (F_ServerHello version random session suite compression) /\ block_ok items /\
        body = frame_body (F_ServerHello version random session suite compression) (ext_block items)
  | M_NewSessionTicket =>
      exists lifetime age_add nonce ticket items,
        frame_ok (F_NewSessionTicket lifetime age_add nonce ticket) /\ block_ok items /\
        body = frame_body (F_NewSessionTicket lifetime age_add nonce ticket) (ext_block items)
  | M_EncryptedExtensions items => block_ok items /\ body = ext_block items
  | M_Certificate context raw certs =>
      exists entries, fits 1 context /\ fits 3 raw /\
        Forall (fun e => fits 3 (fst e) /\ block_ok (snd e)) entries /\
        raw = concat (map entry_wire entries) /\ certs = map fst entries /\
        body = vec 1 context ++ vec 3 raw
  | M_CertificateRequest context items =>
      fits 1 context /\ block_ok items /\ body = vec 1 context ++ ext_block items
  | M_CertificateVerify scheme signature =>
      In scheme (map fst iana_sig_scheme) /\ fits 2 signature /\ body = uint 2 scheme ++ vec 2 signature
  | M_Finished v => length v = hash_len C /\ body = v
  end.

(** The bytes [b] are the message [m], whatever its 24-bit length field says. *)
Definition reads_as (C : crypto) (b : bytes) (m : smsg) : Prop :=
  exists len body, length len = 3 /\ smsg_body C m body /\ b = uint 1 (smsg_type m) ++ len ++ body.

(** The first key_share extension (51) of a ServerHello offers the group [g] and the public key
    [share] (4.2.8). *)
Definition share_of (items : list ext_item) (g : N) (share : bytes) : Prop :=
  exists pre post junk, items = pre ++ (51%N, uint 2 g ++ vec 2 share ++ junk) :: post /\
    Forall (fun i => fst i <> 51%N) pre /\ In g (map fst iana_named_group) /\ fits 2 share.

(** ** The server's flight *)

(** The messages a server sends between ServerHello and the end of its flight. *)
Definition in_flight (m : smsg) : Prop :=
  match m with M_ServerHello _ _ | M_NewSessionTicket => False | _ => True end.
Definition is_finished (m : smsg) : Prop := match m with M_Finished _ => True | _ => False end.

(** The records [rs] carry the handshake messages [ms], from the record number [n] on: a
    change_cipher_spec carries none, a protected record any number of them, a handshake record
    in the clear one (what follows it in the record is not looked at). *)
Inductive carried (C : crypto) (key iv : bytes) : N -> list (bytes * bytes) -> list bytes -> Prop :=
| ca_nil n : carried C key iv n [] []
| ca_ccs n h f rs ms : framed h f -> hd_error h = Some ty_ccs ->
    carried C key iv n rs ms -> carried C key iv n ((h, f) :: rs) ms
| ca_clear n h m junk rs ms : framed h (m ++ junk) -> hd_error h = Some ty_handshake ->
    carried C key iv n rs ms -> carried C key iv n ((h, m ++ junk) :: rs) (m :: ms)
| ca_sealed n h f inner ms1 rs ms : framed h f -> hd_error h = Some ty_data ->
    rfc_open C key iv n h f = Some inner -> rfc_unpad inner = Some (ty_handshake, concat ms1) ->
    carried C key iv (n + 1) rs ms -> carried C key iv n ((h, f) :: rs) (ms1 ++ ms).

(** ** A whole handshake *)

(** The handshake messages that were exchanged and the secrets that come of them.  The
    messages of the server after its ServerHello are [x_before], a Finished, [x_after]. *)
Record exchange := mk_exchange {
  x_hello : bytes;                                    (* ClientHello *)
  x_shello : bytes;                                   (* ServerHello *)
  x_suite : N; x_items : list ext_item;               (* its cipher suite, its extensions *)
  x_group : N; x_share : bytes;                       (* its key share *)
  x_before : list (bytes * smsg);
  x_finished : bytes; x_verify : bytes;
  x_after : list (bytes * smsg);
  x_dhe : bytes;                                      (* the shared (EC)DHE secret *)
  x_client : bytes; x_server : bytes;                 (* the handshake traffic secrets *)
  x_ckey : bytes; x_civ : bytes; x_skey : bytes; x_siv : bytes }.

Definition x_hellos (x : exchange) : bytes := x_hello x ++ x_shello x.
Definition x_msgs (x : exchange) : list (bytes * smsg) :=
  x_before x ++ (x_finished x, M_Finished (x_verify x)) :: x_after x.
Definition raw (ms : list (bytes * smsg)) : bytes := concat (map fst ms).

(** The secrets (RFC 8446 sections 7.1 and 7.3) for the pre-shared key [psk], if any, and the
    client's ephemeral secret [secret]. *)
Definition secrets_ok (C : crypto) (psk : option bytes) (secret : bytes) (x : exchange) : Prop :=
  c_dh C secret (x_share x) = Some (x_dhe x) /\
  exists hs, rfc_handshake C psk (x_dhe x) = Some hs /\
    rfc_derive_secret C hs "c hs traffic" (x_hellos x) = Some (x_client x) /\
    rfc_derive_secret C hs "s hs traffic" (x_hellos x) = Some (x_server x) /\
    rfc_key C (x_client x) = Some (x_ckey x) /\ rfc_iv C (x_client x) = Some (x_civ x) /\
    rfc_key C (x_server x) = Some (x_skey x) /\ rfc_iv C (x_server x) = Some (x_siv x).

(** The byte stream [w] consists of a handshake record in the clear with the ServerHello, of
    records that carry the other messages, and of [rest]. *)
Definition flight_in (C : crypto) (w : bytes) (x : exchange) (rest : bytes) : Prop :=
  exists h0 junk rs, w = wire_of ((h0, x_shello x ++ junk) :: rs) ++ rest /\
    framed h0 (x_shello x ++ junk) /\ hd_error h0 = Some ty_handshake /\
    reads_as C (x_shello x) (M_ServerHello (x_suite x) (x_items x)) /\
    share_of (x_items x) (x_group x) (x_share x) /\
    carried C (x_skey x) (x_siv x) 0 rs (map fst (x_msgs x)) /\
    Forall (fun m => reads_as C (fst m) (snd m) /\ in_flight (snd m)) (x_msgs x).

(** Every Finished among [ms], and there is one, confirms all messages before it. *)
Definition finishes (C : crypto) (x : exchange) : Prop :=
  ~ (exists m, In m (x_after x) /\ is_finished (snd m)) /\
  forall pre b v post, x_msgs x = pre ++ (b, M_Finished v) :: post ->
    rfc_verify_data C (x_server x) (x_hellos x ++ raw pre) = Some v.

(** ** The verifier *)

(** The verifier, told the name of the server if there is one, goes from [v] to [v']. *)
Definition told {V} (p : provider V) (cfg : tls_config) (v v' : V) : Prop :=
  match cfg_server_name cfg with
  | Some n => if p_has_verifier p then p_set_hostname p n v = (Ok tt, v') else v' = v
  | None => v' = v
  end.

(** The verifier in the state [v] was handed every Certificate, with the transcript up to and
    including it, and every CertificateVerify, accepted each, and is then in the state [v']. *)
Inductive accepts_all {V} (p : provider V) : bytes -> list (bytes * smsg) -> V -> V -> Prop :=
| aa_nil tr v : accepts_all p tr [] v v
| aa_cert tr b ctx raw certs ms v v1 v2 :
    p_verify_cert p (tr ++ b) (mk_cert raw ctx (map CE_X509 certs)) v = (Ok tt, v1) ->
    accepts_all p (tr ++ b) ms v1 v2 ->
    accepts_all p tr ((b, M_Certificate ctx raw certs) :: ms) v v2
| aa_verify tr b scheme signature ms v v1 v2 :
    p_verify_sig p (mk_cv scheme signature) v = (Ok tt, v1) ->
    accepts_all p (tr ++ b) ms v1 v2 ->
    accepts_all p tr ((b, M_CertificateVerify (sig_scheme_code scheme) signature) :: ms) v v2
| aa_other tr b m ms v v' :
    match m with M_Certificate _ _ _ | M_CertificateVerify _ _ => False | _ => True end ->
    accepts_all p (tr ++ b) ms v v' -> accepts_all p tr ((b, m) :: ms) v v'.

(** ** The client's answer *)

(** The contexts of the CertificateRequests among [ms]. *)
Definition requests (ms : list (bytes * smsg)) : list bytes :=
  concat (map (fun m => match snd m with M_CertificateRequest ctx _ => [ctx] | _ => [] end) ms).

(** The request the client answers: if there was one before the Finished, the latest. *)
Definition answered (x : exchange) : option bytes :=
  match requests (x_before x) with
  | [] => None
  | _ => hd_error (rev (requests (x_msgs x)))
  end.

(** Certificate with one certificate or none, CertificateVerify, Finished (4.4.2 to 4.4.4). *)
Definition cert_message (ctx : bytes) (ders : list bytes) : bytes :=
  uint 1 11 ++ vec 3 (vec 1 ctx ++ vec 3 (concat (map (fun d => vec 3 d ++ vec 2 []) ders))).
Definition cv_message (scheme : N) (signature : bytes) : bytes :=
  uint 1 15 ++ vec 3 (uint 2 scheme ++ vec 2 signature).
Definition fin_message (verify : bytes) : bytes := uint 1 20 ++ vec 3 verify.

(** What a client signs (4.4.3), the transcript being [tr]. *)
Definition client_signs (C : crypto) (tr : bytes) : bytes :=
  repeat (byte_of 32) 64 ++ ascii "TLS 1.3, client CertificateVerify" ++ [x00] ++ c_hash C tr.

Definition own_certs {V} (p : provider V) : list bytes :=
  match p_client_cert p with
  | Some (CE_X509 d) | Some (CE_RawPublicKey d) => [d]
  | None => []
  end.

(** The messages [ms] are the client's answer, the transcript so far being [tr] and [req] the
    context of the request, if there was one. *)
Definition answer {V} (C : crypto) (p : provider V) (client tr : bytes) (req : option bytes) (ms : list bytes) : Prop :=
  match req with
  | None => exists v, rfc_verify_data C client tr = Some v /\ ms = [fin_message v]
  | Some ctx =>
      let cert := cert_message ctx (own_certs p) in
      match p_client_cert p with
      | None => exists v, rfc_verify_data C client (tr ++ cert) = Some v /\ ms = [cert; fin_message v]
      | Some _ => exists sign scheme signature v,
          p_signer p = Ok (sign, scheme) /\
          sign (client_signs C (tr ++ cert)) = Some signature /\
          let cv := cv_message (sig_scheme_code scheme) signature in
          rfc_verify_data C client (tr ++ cert ++ cv) = Some v /\ ms = [cert; cv; fin_message v]
      end
  end.

(** A record written whole and flushed. *)
Definition goes_out (b : bytes) : list tx_event := [TxWrite b (List.length b); TxFlush].

(** The handshake messages [ms], each in a protected record of its own, numbered from [n]. *)
Fixpoint protected_flight (C : crypto) (key iv : bytes) (n : N) (ms : list bytes) : list tx_event :=
  match ms with
  | [] => []
  | m :: ms => goes_out (rfc_record C key iv n ty_handshake m 0) ++ protected_flight C key iv (n + 1) ms
  end.

(** The ClientHello in its record. *)
Definition hello_record (hello : bytes) : bytes := uint 1 22 ++ uint 2 0x0301 ++ vec 2 hello.

(** ** The keys of the session *)

(** The messages the application keys depend on: through the server's Finished; through the
    end of the server's flight when a certificate was requested. *)
Definition key_messages (x : exchange) : bytes :=
  x_hellos x ++
  match answered x with
  | None => raw (x_before x) ++ x_finished x
  | Some _ => raw (x_msgs x)
  end.

(** [key] and [iv] are those of the traffic secret [label] of the session. *)
Definition session_keys (C : crypto) (psk : option bytes) (x : exchange) (label : string) (key iv : bytes) : Prop :=
  exists ms s, rfc_master C psk (x_dhe x) = Some ms /\ rfc_derive_secret C ms label (key_messages x) = Some s /\
    rfc_key C s = Some key /\ rfc_iv C s = Some iv.
