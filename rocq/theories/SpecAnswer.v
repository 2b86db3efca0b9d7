(** * Specification vocabulary: how [open] ends once the server's flight is complete *)
From Coq Require Import String List NArith Arith Bool.
From Coq.Strings Require Import Byte.
From Verif Require Import Base Codes Crypto Config Handshake Transport Connection SpecWire SpecCodes SpecKeys SpecRecord SpecSend SpecRead SpecHandshake SpecOpen SpecComplete SpecDefect SpecFailure.
Import ListNotations.
Local Open Scope list_scope.

(** The content [m] of a protected record fits a write buffer of [L] bytes: 5 bytes of header, the
    byte of the content type and the 16 bytes of the tag come to it. *)
Definition has_room (L : nat) (m : bytes) : Prop := length m + 22 <= L.

(** It does not, and this is the error: the message itself does not fit, with the error [e] that differs
    between the messages; the byte of the content type does not; or the tag does not (the check for it
    before the encryption leaves out the header). *)
Inductive no_space (e : tls_error) (L : nat) (m : bytes) : outcome tls_error unit -> Prop :=
| ns_message : L < 5 + length m -> no_space e L m (Err e)
| ns_type : L = 5 + length m -> no_space e L m (Err EncodeError)
| ns_body : 6 + length m <= L < 17 + length m -> no_space e L m (Err InsufficientSpace)
| ns_tag : 17 + length m <= L < 22 + length m -> no_space e L m (Err InvalidApplicationData).

Section Answer.
Context {V : Type}.
(** [L] bytes are in the write buffer (there are at least 128, or there would be no connection); [client] is the client's handshake traffic secret. *)
Variables (C : crypto) (p : provider V) (L : nat) (client : bytes).

(** Each of the following relates the outcome of [open] to the contents of the records, with their
    types, that are still sent; [tr] is the transcript so far.  First, only the Finished is left. *)
Inductive finish_ends (tr : bytes) : outcome tls_error unit -> list (byte * bytes) -> Prop :=
| fe_ok v : rfc_verify_data C client tr = Some v -> has_room L (fin_message v) ->
    finish_ends tr (Ok tt) [(ty_handshake, fin_message v)]
| fe_space v o : rfc_verify_data C client tr = Some v -> no_space EncodeError L (fin_message v) o ->
    finish_ends tr o [].

(** The certificate was sent, the signature and the Finished are left. *)
Inductive signature_ends (tr : bytes) : outcome tls_error unit -> list (byte * bytes) -> Prop :=
| se_sent sign scheme sg o out : p_signer p = Ok (sign, scheme) -> hash_len C <= 48 ->
    sign (client_signs C tr) = Some sg -> length sg <= p_sig_cap p ->
    has_room L (cv_message (sig_scheme_code scheme) sg) ->
    finish_ends (tr ++ cv_message (sig_scheme_code scheme) sg) o out ->
    signature_ends tr o ((ty_handshake, cv_message (sig_scheme_code scheme) sg) :: out)
| se_space sign scheme sg o : p_signer p = Ok (sign, scheme) -> hash_len C <= 48 ->
    sign (client_signs C tr) = Some sg -> length sg <= p_sig_cap p ->
    no_space InsufficientSpace L (cv_message (sig_scheme_code scheme) sg) o -> signature_ends tr o []
(** Longer hashes than SHA-384 do not fit the buffer of what is signed. *)
| se_hash sign scheme : p_signer p = Ok (sign, scheme) -> 48 < hash_len C -> signature_ends tr (Err EncodeError) []
(** The signer gives no signature, or one too long for the buffer. *)
| se_refused sign scheme : p_signer p = Ok (sign, scheme) -> hash_len C <= 48 ->
    sign (client_signs C tr) = None -> signature_ends tr (Panic PUnwrap) []
| se_long sign scheme sg : p_signer p = Ok (sign, scheme) -> hash_len C <= 48 ->
    sign (client_signs C tr) = Some sg -> p_sig_cap p < length sg -> signature_ends tr (Panic PUnwrap) []
(** There is no signer: a close_notify is sent. *)
| se_none e : p_signer p = Err e -> signature_ends tr (Err e) [(ty_alert, uint 1 1 ++ uint 1 0)]
(** The provider itself panics or does not return. *)
| se_panic x : p_signer p = Panic x -> signature_ends tr (Panic x) []
| se_diverge : p_signer p = Diverge -> signature_ends tr Diverge []
| se_cancelled : p_signer p = Cancelled -> signature_ends tr Cancelled [].

(** The whole answer; [req] is the context of the CertificateRequest that is answered, if any. *)
Inductive answer_ends (tr : bytes) : option bytes -> outcome tls_error unit -> list (byte * bytes) -> Prop :=
| ae_none o out : finish_ends tr o out -> answer_ends tr None o out
| ae_empty ctx o out : p_client_cert p = None -> has_room L (cert_message ctx []) ->
    finish_ends (tr ++ cert_message ctx []) o out ->
    answer_ends tr (Some ctx) o ((ty_handshake, cert_message ctx []) :: out)
| ae_empty_space ctx o : p_client_cert p = None -> no_space InsufficientSpace L (cert_message ctx []) o ->
    answer_ends tr (Some ctx) o []
| ae_cert ctx d o out : p_client_cert p = Some (CE_X509 d) -> has_room L (cert_message ctx [d]) ->
    signature_ends (tr ++ cert_message ctx [d]) o out ->
    answer_ends tr (Some ctx) o ((ty_handshake, cert_message ctx [d]) :: out)
| ae_cert_space ctx d o : p_client_cert p = Some (CE_X509 d) -> no_space InsufficientSpace L (cert_message ctx [d]) o ->
    answer_ends tr (Some ctx) o []
(** A raw public key is not implemented; the code comes to it when the header, the context and the
    length of the list (13 bytes and the context) are in the buffer. *)
| ae_raw ctx d : p_client_cert p = Some (CE_RawPublicKey d) -> 13 + length ctx <= L ->
    answer_ends tr (Some ctx) (Panic PUnimplemented) []
| ae_raw_space ctx d : p_client_cert p = Some (CE_RawPublicKey d) -> L < 13 + length ctx ->
    answer_ends tr (Some ctx) (Err InsufficientSpace) [].
End Answer.

(** The protected records with these contents, the numbers beginning with [n]. *)
Fixpoint protected_records (C : crypto) (key iv : bytes) (n : N) (l : list (byte * bytes)) : list tx_event :=
  match l with
  | [] => []
  | (t, m) :: l => goes_out (rfc_record C key iv n t m 0) ++ protected_records C key iv (n + 1) l
  end.

(** ** The whole of [open]

    What [open] returns and what it sends after the ClientHello, if all writes succeed: [hello] is the
    ClientHello, [L] and [room] are the lengths of the write and the read buffer, [v0] the verifier after it was
    told the name, and [w] is all that the server sends. *)
Inductive opens_with {V} (C : crypto) (p : provider V) (psk : option bytes) (L room : nat) (hello : bytes) (v0 : V) (w : bytes) :
  outcome tls_error unit -> list tx_event -> Prop :=
(** No record can be read. *)
| ow_unreadable e : unreadable room w e -> opens_with C p psk L room hello v0 w (Err e) []
(** The first record is not a ServerHello that the client can use. *)
| ow_first h f rest e : w = h ++ f ++ rest -> framed h f -> length f <= room -> first_fails C (p_secret p) h f e ->
    opens_with C p psk L room hello v0 w (Err e) []
(** The flight begins well, but then comes no record, or one that ends it. *)
| ow_stops x ms n v1 rest e : x_hello x = hello -> begun C p room w x ms n v0 v1 rest -> secrets_ok C psk (p_secret p) x ->
    unreadable room rest e -> opens_with C p psk L room hello v0 w (Err e) []
| ow_later x ms n v1 h f rest o : x_hello x = hello -> begun C p room w x ms n v0 v1 (h ++ f ++ rest) -> secrets_ok C psk (p_secret p) x ->
    framed h f -> length f <= room ->
    record_fails C p (x_server x) (x_skey x) (x_siv x) (x_hellos x ++ raw ms) n v1 h f o ->
    opens_with C p psk L room hello v0 w o (told_peer o)
| ow_garbled x ms n v1 h f rest e : x_hello x = hello -> begun C p room w x ms n v0 v1 (h ++ f ++ rest) -> secrets_ok C psk (p_secret p) x ->
    framed h f -> length f <= room ->
    record_garbled C p (x_server x) (x_skey x) (x_siv x) (x_hellos x ++ raw ms) n v1 h f e ->
    opens_with C p psk L room hello v0 w (Err e) (if Byte.eqb (hd x00 h) ty_data then told_peer (Err e) else [])
(** The flight is complete and right; the answer. *)
| ow_answer x rest v1 o out : x_hello x = hello -> whole_flight C room w x rest -> secrets_ok C psk (p_secret p) x -> finishes C x ->
    (p_has_verifier p = true -> accepts_all p (x_hellos x) (x_msgs x) v0 v1) ->
    answer_ends C p L (x_client x) (x_hellos x ++ raw (x_msgs x)) (answered x) o out ->
    opens_with C p psk L room hello v0 w o (protected_records C (x_ckey x) (x_civ x) 0 out).
