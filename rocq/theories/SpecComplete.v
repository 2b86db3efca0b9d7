(** * Specification vocabulary: which server flights the client can follow *)
From Coq Require Import String List NArith Arith Bool.
From Coq.Strings Require Import Byte.
From Verif Require Import Base Codes Crypto Config Handshake Connection Transport SpecWire SpecCodes SpecMessages SpecKeys SpecRecord
  SpecSend SpecRead SpecHandshake.
Import ListNotations.
Local Open Scope list_scope.

(** ** Contents of extensions *)

(** A list of 16-bit codes, all registered, at most [most] of them; what follows it is ignored. *)
Definition code_list {A} (registry : list (N * A)) (most : nat) (b : bytes) : Prop :=
  exists codes junk, b = vec 2 (concat (map (uint 2) codes)) ++ junk /\
    Forall (fun c => In c (map fst registry)) codes /\ length codes <= most.

(** A list of non-empty protocol names (RFC 7301 section 3.1). *)
Definition name_list (b : bytes) : Prop :=
  exists names junk, b = vec 2 (concat (map (vec 1) names)) ++ junk /\ fits 2 (concat (map (vec 1) names)) /\
    Forall (fun n => n <> [] /\ fits 1 n) names.

(** The body of an extension of a server message that has the form RFC 8446 section 4.2 gives
    it: the extensions whose bodies matter, any bytes for the others. *)
Definition content_ok (m : server_message) (t : N) (b : bytes) : Prop :=
  match m, t with
  | InServerHello, 51 (* key_share *) => exists g share junk,
      b = uint 2 g ++ vec 2 share ++ junk /\ In g (map fst iana_named_group) /\ fits 2 share
  | InServerHello, 41 (* pre_shared_key *) | InServerHello, 43 (* supported_versions *) => (2 <= length b)%nat
  | InEncryptedExtensions, 0 (* server_name *) => b = []
  | InEncryptedExtensions, 1 (* max_fragment_length *) => exists c junk,
      b = uint 1 c ++ junk /\ In c (map fst iana_max_frag)
  | InEncryptedExtensions, 10 (* supported_groups *) => code_list iana_named_group 13 b
  | InEncryptedExtensions, 16 (* application_layer_protocol_negotiation *) => name_list b
  | InCertificateRequest, 13 (* signature_algorithms *) => code_list iana_sig_scheme 25 b
  | _, _ => True
  end%N.

(** How many recognised extensions the client has room for in a message. *)
Definition most_extensions (m : server_message) : nat :=
  match m with
  | InServerHello => 4 | InEncryptedExtensions => 16 | InCertificateRequest => 6
  | InCertificate => 2 | InNewSessionTicket => 1
  end.

Definition recognised_items (items : list ext_item) : list ext_item :=
  filter (fun i => existsb (N.eqb (fst i)) (map fst iana_ext_type)) items.

(** The recognised extensions among [items] may appear in the message, have a proper body, and
    are not too many.  Nothing is asked of the others. *)
Definition digestible (m : server_message) (items : list ext_item) : Prop :=
  (forall t b, In (t, b) (recognised_items items) -> In t (rfc_allowed m) /\ content_ok m t b) /\
  length (recognised_items items) <= most_extensions m.

(** The bytes [b] are the message [m] and the client decodes it. *)
Definition understood (C : crypto) (b : bytes) (m : smsg) : Prop :=
  reads_as C b m /\
  match m with
  | M_ServerHello _ items => digestible InServerHello items
  | M_EncryptedExtensions items => digestible InEncryptedExtensions items
  | M_CertificateRequest _ items => digestible InCertificateRequest items
  | M_Certificate _ raw _ => exists entries, raw = concat (map entry_wire entries) /\
      Forall (fun e => fits 3 (fst e) /\ block_ok (snd e) /\ digestible InCertificate (snd e)) entries /\
      length entries <= 16
  | M_NewSessionTicket => exists len lifetime age_add nonce ticket items, length len = 3 /\
      frame_ok (F_NewSessionTicket lifetime age_add nonce ticket) /\ block_ok items /\
      b = uint 1 4 ++ len ++ frame_body (F_NewSessionTicket lifetime age_add nonce ticket) (ext_block items) /\
      digestible InNewSessionTicket items
  | M_CertificateVerify _ _ | M_Finished _ => True
  end.

(** ** The flight *)

(** How many of the records [rs] are protected. *)
Definition protected_in (rs : list (bytes * bytes)) : N :=
  N.of_nat (length (filter (fun r => match fst r with t :: _ => Byte.eqb t ty_data | [] => false end) rs)).

(** The byte stream [w] starts with a flight the client can follow, with a read buffer of [room]
    bytes: a handshake record with a ServerHello the client understands and that has a key share;
    the records [rs] with messages it understands, none of them a Finished; the record [r] that
    brings a Finished (more messages may follow in that record); each record fits the buffer. *)
Definition whole_flight (C : crypto) (room : nat) (w : bytes) (x : exchange) (rest : bytes) : Prop :=
  exists h0 junk rs r ms1 ms2,
    w = wire_of ((h0, x_shello x ++ junk) :: rs ++ [r]) ++ rest /\
    framed h0 (x_shello x ++ junk) /\ hd_error h0 = Some ty_handshake /\
    understood C (x_shello x) (M_ServerHello (x_suite x) (x_items x)) /\
    share_of (x_items x) (x_group x) (x_share x) /\
    x_msgs x = ms1 ++ ms2 /\
    carried C (x_skey x) (x_siv x) 0 rs (map fst ms1) /\
    carried C (x_skey x) (x_siv x) (protected_in rs) [r] (map fst ms2) /\
    ~ (exists m, In m ms1 /\ is_finished (snd m)) /\
    Forall (fun m => understood C (fst m) (snd m) /\ in_flight (snd m)) (x_msgs x) /\
    Forall (fun r => length (snd r) <= room) ((h0, x_shello x ++ junk) :: rs ++ [r]) /\
    (protected_in (rs ++ [r]) < 2 ^ 64)%N.

(** If the client has a certificate of its own, it is an X.509 one, its signatures fit the buffer
    for them, and the hash is one of those RFC 8446 uses (SHA-256, SHA-384). *)
Definition signer_fits {V} (C : crypto) (p : provider V) : Prop :=
  p_client_cert p = None \/
  (exists d, p_client_cert p = Some (CE_X509 d)) /\ hash_len C <= 48 /\
  forall sign scheme, p_signer p = Ok (sign, scheme) -> forall m sg, sign m = Some sg -> length sg <= p_sig_cap p.

(** The same of the one signature the client makes, [tr] being the transcript and [req] the context
    of the request it answers, if there was one. *)
Definition signature_fits {V} (C : crypto) (p : provider V) (tr : bytes) (req : option bytes) : Prop :=
  match req with
  | None => True
  | Some ctx => p_client_cert p = None \/
      (exists d, p_client_cert p = Some (CE_X509 d)) /\ hash_len C <= 48 /\
      forall sign scheme, p_signer p = Ok (sign, scheme) ->
        forall sg, sign (client_signs C (tr ++ cert_message ctx (own_certs p))) = Some sg -> length sg <= p_sig_cap p
  end.

(** ** A server that follows the RFC *)

(** Its records after the ServerHello: a change_cipher_spec (RFC 8446 appendix D.4), or messages
    with some padding. *)
Inductive part :=
| P_ccs
| P_messages (ms : list (bytes * smsg)) (pad : nat).

Definition part_msgs (q : part) : list (bytes * smsg) := match q with P_ccs => [] | P_messages ms _ => ms end.
Definition parts_msgs (l : list part) : list (bytes * smsg) := concat (map part_msgs l).

(** These on the wire; the protected ones have the numbers [n], [n+1], ... *)
Fixpoint parts_wire (C : crypto) (key iv : bytes) (n : N) (l : list part) : bytes :=
  match l with
  | [] => []
  | P_ccs :: l => [x14; x03; x03; x00; x01; x01] ++ parts_wire C key iv n l
  | P_messages ms pad :: l => rfc_record C key iv n ty_handshake (raw ms) pad ++ parts_wire C key iv (n + 1) l
  end.

(** The record fits a read buffer of [room] bytes and the 16-bit length field. *)
Definition part_fits (C : crypto) (room : nat) (q : part) : Prop :=
  match q with
  | P_ccs => 1 <= room
  | P_messages ms pad =>
      length (raw ms) + 1 + pad + tag_len C <= room /\ (N.of_nat (length (raw ms) + 1 + pad + tag_len C) < 65536)%N
  end.

(** The server's flight: the ServerHello in a record of its own, then [l]. *)
Definition flight_wire (C : crypto) (x : exchange) (l : list part) : bytes :=
  uint 1 22 ++ uint 2 0x0303 ++ vec 2 (x_shello x) ++ parts_wire C (x_skey x) (x_siv x) 0 l.

(** It is one that the client can follow: the messages of the exchange, all of them understood;
    no Finished before the last record; the sizes fit. *)
Definition followable (C : crypto) (room : nat) (x : exchange) (l : list part) : Prop :=
  understood C (x_shello x) (M_ServerHello (x_suite x) (x_items x)) /\
  share_of (x_items x) (x_group x) (x_share x) /\
  fits 2 (x_shello x) /\ length (x_shello x) <= room /\
  parts_msgs l = x_msgs x /\
  Forall (fun m => understood C (fst m) (snd m) /\ in_flight (snd m)) (x_msgs x) /\
  ~ (exists m, In m (parts_msgs (removelast l)) /\ is_finished (snd m)) /\
  Forall (part_fits C room) l /\ (N.of_nat (length l) < 2 ^ 64)%N.
