(** * Specification vocabulary: how a handshake fails *)
From Coq Require Import String List NArith Arith Bool.
From Coq.Strings Require Import Byte.
From Verif Require Import Base ParseBuffer Codes Crypto Config Handshake Connection Transport SpecWire SpecCodes SpecMessages SpecKeys SpecRecord
  SpecSend SpecRead SpecHandshake SpecComplete SpecDefect.
Import ListNotations.
Local Open Scope list_scope.

(** ** No record *)

(** The bytes [w], all that is still to come, do not start with a record that can be read into a
    buffer of [room] bytes: the reading ends with the error. *)
Inductive unreadable (room : nat) : bytes -> tls_error -> Prop :=
| un_header w : length w < 5 -> unreadable room w IoError
| un_type h w : length h = 5 -> ~ type_known h -> unreadable room (h ++ w) InvalidRecord
| un_long h n w : length h = 5 -> type_known h -> be_val (skipn 3 h) = N.of_nat n -> room < n ->
    unreadable room (h ++ w) InsufficientSpace
| un_cut h n w : length h = 5 -> type_known h -> be_val (skipn 3 h) = N.of_nat n -> n <= room -> length w < n ->
    unreadable room (h ++ w) IoError.

(** ** Alerts (RFC 8446 section 6) *)

(** [b] starts with the alert. *)
Definition is_alert (b : bytes) (l : alert_level) (d : alert_desc) : Prop :=
  exists junk, b = uint 1 (alert_level_code l) ++ uint 1 (alert_desc_code d) ++ junk.

(** [b] is no alert: too short, or a code that is not registered. *)
Inductive bad_alert : bytes -> tls_error -> Prop :=
| ba_short b : length b < 2 -> bad_alert b (ParseErr PE_InsufficientBytes)
| ba_code l d b : ~ (In (Byte.to_N l) (map fst iana_alert_level) /\ In (Byte.to_N d) (map fst iana_alert_desc)) ->
    bad_alert (l :: d :: b) DecodeError.

(** ** The first record *)

(** [secret] is the client's ephemeral secret. *)
Inductive first_fails (C : crypto) (secret : bytes) : bytes -> bytes -> tls_error -> Prop :=
| ff_alert h f l d : hd_error h = Some ty_alert -> is_alert f l d -> first_fails C secret h f (HandshakeAborted l d)
| ff_bad_alert h f e : hd_error h = Some ty_alert -> bad_alert f e -> first_fails C secret h f e
| ff_message h b m junk : hd_error h = Some ty_handshake -> understood C b m ->
    match m with M_ServerHello _ _ => False | _ => True end -> first_fails C secret h (b ++ junk) InvalidHandshake
| ff_share h b suite items junk : hd_error h = Some ty_handshake -> understood C b (M_ServerHello suite items) ->
    (forall g share, share_of items g share -> c_dh C secret share = None) ->
    first_fails C secret h (b ++ junk) InvalidKeyShare
| ff_faulty h f e : hd_error h = Some ty_handshake -> faulty C f e -> first_fails C secret h f e
| ff_ccs h f : hd_error h = Some ty_ccs -> first_fails C secret h f InvalidRecord
| ff_data h f : hd_error h = Some ty_data -> first_fails C secret h f InvalidRecord
| ff_invalid h f : hd_error h = Some x00 -> first_fails C secret h f Unimplemented.

(** ** Messages *)

Section Messages.
Context {V : Type} (C : crypto) (p : provider V) (server : bytes).

(** The client takes the message [b], which is [m]; [tr] is the transcript before it, [v] and [v'] the
    state of the verifier before and after.  [server] is the server's handshake traffic secret. *)
Definition message_taken (tr : bytes) (v : V) (b : bytes) (m : smsg) (v' : V) : Prop :=
  understood C b m /\ in_flight m /\
  match m with
  | M_Certificate ctx raw certs =>
      if p_has_verifier p then p_verify_cert p (tr ++ b) (mk_cert raw ctx (map CE_X509 certs)) v = (Ok tt, v') else v' = v
  | M_CertificateVerify code sg =>
      if p_has_verifier p then exists scheme, sig_scheme_code scheme = code /\ p_verify_sig p (mk_cv scheme sg) v = (Ok tt, v') else v' = v
  | M_Finished vd => rfc_verify_data C server tr = Some vd /\ v' = v
  | _ => v' = v
  end.

(** It does not: [o] is what [open] returns, nearly always an error, but the user's verifier could also
    panic or not return. *)
Definition message_refused (tr : bytes) (v : V) (b : bytes) (m : smsg) (o : outcome tls_error unit) : Prop :=
  understood C b m /\ o <> Ok tt /\
  match m with
  | M_ServerHello _ _ | M_NewSessionTicket => o = Err InvalidHandshake
  | M_Certificate ctx raw certs => p_has_verifier p = true /\
      exists v', p_verify_cert p (tr ++ b) (mk_cert raw ctx (map CE_X509 certs)) v = (o, v')
  | M_CertificateVerify code sg => p_has_verifier p = true /\
      exists scheme v', sig_scheme_code scheme = code /\ p_verify_sig p (mk_cv scheme sg) v = (o, v')
  | M_Finished vd => rfc_verify_data C server tr <> Some vd /\ o = Err InvalidSignature
  | M_EncryptedExtensions _ | M_CertificateRequest _ _ => False
  end.

Inductive messages_taken : bytes -> V -> list (bytes * smsg) -> V -> Prop :=
| mt_nil tr v : messages_taken tr v [] v
| mt_cons tr v b m v1 ms v2 : message_taken tr v b m v1 -> messages_taken (tr ++ b) v1 ms v2 ->
    messages_taken tr v ((b, m) :: ms) v2.

(** ** The records after the ServerHello *)

(** The content of a protected record, of type [t]. *)
Inductive content_fails (tr : bytes) (v : V) : byte -> bytes -> outcome tls_error unit -> Prop :=
| cf_type t content : ~ In (Byte.to_N t) [20; 21; 22; 23]%N -> content_fails tr v t content (Err InvalidRecord)
| cf_ccs content : content_fails tr v ty_ccs content (Err Unimplemented)
| cf_data content : content_fails tr v ty_data content (Err InvalidRecord)
| cf_alert content l d : is_alert content l d -> content_fails tr v ty_alert content (Err InvalidRecord)
| cf_bad_alert content e : bad_alert content e -> content_fails tr v ty_alert content (Err e)
| cf_message ms v1 b m junk o : messages_taken tr v ms v1 -> message_refused (tr ++ raw ms) v1 b m o ->
    content_fails tr v ty_handshake (raw ms ++ b ++ junk) o.

(** The record with the header [h] and the fragment [f], number [n] under the key and the IV, ends the
    handshake: with an error or, if it is protected and empty, with a panic. *)
Inductive record_fails (key iv tr : bytes) (n : N) (v : V) (h f : bytes) : outcome tls_error unit -> Prop :=
| rf_alert l d : hd_error h = Some ty_alert -> is_alert f l d -> record_fails key iv tr n v h f (Err InvalidRecord)
| rf_bad_alert e : hd_error h = Some ty_alert -> bad_alert f e -> record_fails key iv tr n v h f (Err e)
| rf_invalid : hd_error h = Some x00 -> record_fails key iv tr n v h f (Err Unimplemented)
| rf_message b m junk o : hd_error h = Some ty_handshake -> f = b ++ junk -> message_refused tr v b m o ->
    record_fails key iv tr n v h f o
| rf_forged : hd_error h = Some ty_data -> rfc_open C key iv n h f = None -> record_fails key iv tr n v h f (Err CryptoError)
| rf_empty : hd_error h = Some ty_data -> rfc_open C key iv n h f = Some [] -> record_fails key iv tr n v h f (Panic PUnwrap)
| rf_zeros k : hd_error h = Some ty_data -> rfc_open C key iv n h f = Some (repeat x00 (S k)) ->
    record_fails key iv tr n v h f (Err Unimplemented)
| rf_sealed inner t content o : hd_error h = Some ty_data -> rfc_open C key iv n h f = Some inner ->
    rfc_unpad inner = Some (t, content) -> content_fails tr v t content o -> record_fails key iv tr n v h f o.

(** The record brings, perhaps after some messages that are taken, bytes that are no message; the error for
    them (SpecDefect.v). *)
Inductive record_garbled (key iv tr : bytes) (n : N) (v : V) (h f : bytes) : tls_error -> Prop :=
| rg_clear e : hd_error h = Some ty_handshake -> faulty C f e -> record_garbled key iv tr n v h f e
| rg_sealed inner ms v1 junk e : hd_error h = Some ty_data -> rfc_open C key iv n h f = Some inner ->
    rfc_unpad inner = Some (ty_handshake, raw ms ++ junk) -> messages_taken tr v ms v1 -> junk <> [] -> faulty C junk e ->
    record_garbled key iv tr n v h f e.

End Messages.

(** ** A handshake that has begun *)

(** The stream [w] begins with a ServerHello the client understands and that has a key share, and with
    records, [n] of them protected, that carry the messages [ms]; the client takes them all, going from [v0] to
    [v1]; no Finished is among them.  [rest] follows. *)
Definition begun {V} (C : crypto) (p : provider V) (room : nat) (w : bytes) (x : exchange) (ms : list (bytes * smsg)) (n : N) (v0 v1 : V) (rest : bytes) : Prop :=
  exists h0 junk rs,
    w = wire_of ((h0, x_shello x ++ junk) :: rs) ++ rest /\
    framed h0 (x_shello x ++ junk) /\ hd_error h0 = Some ty_handshake /\
    understood C (x_shello x) (M_ServerHello (x_suite x) (x_items x)) /\
    share_of (x_items x) (x_group x) (x_share x) /\
    carried C (x_skey x) (x_siv x) 0 rs (map fst ms) /\
    messages_taken C p (x_server x) (x_hellos x) v0 ms v1 /\ ~ (exists m, In m ms /\ is_finished (snd m)) /\
    Forall (fun r => length (snd r) <= room) ((h0, x_shello x ++ junk) :: rs) /\
    n = protected_in rs /\ (n < 2 ^ 64)%N.

(** What follows begins with a record that completes the flight: a Finished is among the messages it
    brings, and the client takes them all. *)
Definition completes {V} (C : crypto) (p : provider V) (server key iv tr : bytes) (n : N) (v : V) (h f : bytes) : Prop :=
  exists ms v', carried C key iv n [(h, f)] (map fst ms) /\ messages_taken C p server tr v ms v' /\
    exists m, In m ms /\ is_finished (snd m).

(** What [open] sends because of the outcome, besides the ClientHello: if the user's verifier returns
    [AbortHandshake], the alert named in it, in the clear. *)
Definition told_peer (o : outcome tls_error unit) : list tx_event :=
  match o with
  | Err (AbortHandshake l d) => goes_out ([x14; x03; x01; x00; x02] ++ uint 1 (alert_level_code l) ++ uint 1 (alert_desc_code d))
  | _ => []
  end.
