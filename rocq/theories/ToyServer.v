(** * Concrete handshakes with other servers, over the toy primitives

    Like ToyRun.v, with the ServerHello and the records of the server chosen freely.  Used only
    by examples and counterexamples. *)
From Coq Require Import String List NArith Arith Bool.
From Coq.Strings Require Import Byte.
From Verif Require Import Base ParseBuffer Buffer Codes Extensions Crypto KeySchedule Config
  Handshake Record WriteBuffer Transport RecordReader ReadBuffer Connection Api
  BaseProofs SpecWire SpecKeys SpecRecord SpecSend Toy ToyRun.
Import ListNotations.
Local Open Scope list_scope.

(** ** Servers *)

(** A ServerHello. *)
Definition hello_with (version : N) (random : bytes) (suite : N) (exts : bytes) : bytes :=
  hs_message 2 (uint 2 version ++ random ++ vec 1 [] ++ uint 2 suite ++ uint 1 0 ++ vec 2 exts).
Definition ext_version (v : N) : bytes := extension 43 (uint 2 v).
Definition ext_share (g : N) (share : bytes) : bytes := extension 51 (uint 2 g ++ vec 2 share).

Section Server.
Context (psk : option bytes) (hellos : bytes).

Definition y_traffic : bytes :=
  some (rfc_derive_secret toy (some (rfc_handshake toy psk srv_dhe)) "s hs traffic" hellos).
Definition y_record (seq : N) (ty : byte) (content : bytes) : bytes :=
  rfc_record toy (some (rfc_key toy y_traffic)) (some (rfc_iv toy y_traffic)) seq ty content 0.
Definition y_finished (before : bytes) : bytes :=
  hs_message 20 (some (rfc_verify_data toy y_traffic (hellos ++ before))).
(** EncryptedExtensions and Finished in one protected record. *)
Definition y_flight : bytes := y_record 0 ty_handshake (empty_ee ++ y_finished empty_ee).
End Server.

(** The flight of a server with the ServerHello [sh]. *)
Definition flight_with (sh : bytes) : bytes :=
  plain_handshake sh ++ y_flight None (plain_hello ++ sh).

(** ** Clients *)

(** A verifier that rejects everything. *)
Definition no_one : provider unit :=
  mk_provider toy_random toy_secret true (fun _ => ret tt) (fun _ _ => fail InvalidCertificate)
    (fun _ => fail InvalidSignature) None (Err Unimplemented) 0.

(** A verifier that accepts everything and counts; a client certificate and a signer. *)
Definition tick : M nat tls_error unit := modify S.
Definition full_provider : provider nat :=
  mk_provider toy_random toy_secret true (fun _ => tick) (fun _ _ => tick) (fun _ => tick)
    (Some (CE_X509 [xc1; xc2])) (Ok (fun m => Some (firstn 6 (t_hash m)), SS_EcdsaSecp256r1Sha256)) 16.

(** ** Runs *)

(** Opening with [rx] to come, buffers of 400 and 300 bytes. *)
Definition opening {V} (p : provider V) (v : V) (rx : list rx_event) := open_with p small_config v 400 300 rx silent.

(** The full handshake: change_cipher_spec; EncryptedExtensions and CertificateRequest in one
    record; Certificate, CertificateVerify and Finished in another. *)
Definition full_hellos : bytes := Eval vm_compute in plain_hello ++ srv_hello.
Definition full_request : bytes := Eval vm_compute in
  hs_message 13 (vec 1 [x07; x08] ++ vec 2 (extension 13 (vec 2 (uint 2 0x0403)))).
Definition full_cert : bytes := Eval vm_compute in hs_message 11 (vec 1 [] ++ vec 3 (vec 3 [xd1; xd2; xd3] ++ vec 2 [])).
Definition full_cv : bytes := Eval vm_compute in hs_message 15 (uint 2 0x0403 ++ vec 2 [x51; x52]).
Definition full_finished : bytes := Eval vm_compute in y_finished None full_hellos (empty_ee ++ full_request ++ full_cert ++ full_cv).
Definition full_records : list bytes := Eval vm_compute in
  [plain_handshake srv_hello; [x14; x03; x03; x00; x01; x01];
   y_record None full_hellos 0 ty_handshake (empty_ee ++ full_request);
   y_record None full_hellos 1 ty_handshake (full_cert ++ full_cv ++ full_finished)].
Definition full_flight : bytes := Eval vm_compute in concat full_records.

(** The flight arrives in three pieces, with application data behind. *)
Definition full_rx : list rx_event :=
  [RxData (firstn 70 full_flight); RxData (firstn 100 (skipn 70 full_flight)); RxData (skipn 170 full_flight ++ [x17; x03])].
Definition full_start : conn := Eval vm_compute in
  match cn_new toy (zeros 400) (zeros 300) full_rx silent with Ok c => c | _ => no_conn end.
Lemma full_start_new : cn_new toy (zeros 400) (zeros 300) full_rx silent = Ok full_start.
Proof. reflexivity. Qed.
Definition full_conn : conn := Eval vm_compute in snd (cn_open toy full_provider small_config 0 full_start).
Lemma full_conn_opened : cn_open toy full_provider small_config 0 full_start = (Ok tt, full_conn).
Proof. vm_compute. reflexivity. Qed.
