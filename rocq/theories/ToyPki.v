(** * Concrete certificates and handshakes with the built-in verifiers, over the toy primitives

    A toy certificate is a SEQUENCE of a SEQUENCE (key, not before, not after, and the value of
    a subjectAltName extension) and a signature.  Used only by examples and counterexamples. *)
From Coq Require Import String List NArith Arith Bool.
From Coq.Strings Require Import Byte.
From Verif Require Import Base ParseBuffer Buffer Codes Extensions Crypto KeySchedule Config
  Handshake Record WriteBuffer Transport RecordReader ReadBuffer Connection Api Pki WebPki
  BaseProofs SpecWire SpecKeys SpecRecord SpecSend SpecHandshake SpecPki Toy ToyRun ToyServer.
Import ListNotations.
Local Open Scope list_scope.

(** ** The library *)

(** Short lengths only. *)
Definition z_header (b : bytes) : option (byte * nat * bytes) :=
  match b with
  | t :: l :: r => if (Byte.to_N l <? 128)%N then Some (t, N.to_nat (Byte.to_N l), r) else None
  | _ => None
  end.

Definition z_cert (b : bytes) : option dcert :=
  match b with
  | x30 :: _ :: x30 :: m :: k :: nb :: na :: r =>
      let n := N.to_nat (Byte.to_N m) - 3 in
      Some (mk_dcert (UtcTime (Byte.to_N nb)) (GeneralTime (Byte.to_N na)) [] (Some [k])
              (match n with O => None | _ => Some [(OID_SAN, (x04, firstn n r))] end)
              ID_ECDSA_SHA256 (Some (skipn n r)))
  | _ => None
  end.

Definition z_sign (key msg : bytes) : bytes := key ++ firstn 4 (t_hash msg).
Definition z_lib : pki_lib :=
  mk_pki z_cert z_header (fun _ k => length k =? 1) (fun _ s => length s =? 5)
    (fun _ key msg sg => bytes_eqb sg (z_sign key msg)).

Lemma z_ok : pki_ok z_lib.
Proof.
  constructor. intros b t n r H. cbn [k_header z_lib] in H. unfold z_header in H.
  destruct b as [|x [|y b]]; try discriminate. destruct (Byte.to_N y <? 128)%N; [|discriminate].
  injection H as <- _ <-. now exists [y].
Qed.

Definition z_features : features := mk_features true true true.
Definition z_len (b : bytes) : byte := b8 (N.of_nat (length b)).
Definition z_tbs (key nb na : byte) (san : bytes) : bytes :=
  let c := key :: nb :: na :: san in x30 :: z_len c :: c.
Definition z_issue (issuer : bytes) (tbs : bytes) : bytes :=
  let c := tbs ++ z_sign issuer tbs in x30 :: z_len c :: c.

(** An authority, an intermediate certificate and one for "A", in force from 1 to 9. *)
Definition z_ca : bytes := Eval vm_compute in z_issue [xca] (z_tbs xca x01 x09 []).
Definition z_mid : bytes := Eval vm_compute in z_issue [xca] (z_tbs xcb x01 x09 []).
Definition z_leaf : bytes := Eval vm_compute in z_issue [xcb] (z_tbs xcc x01 x09 [x30; x03; x82; x01; x41]).

(** ** Providers *)

Definition z_provider : provider pki_state :=
  mk_provider toy_random toy_secret true pv_set_hostname
    (pv_verify_certificate z_lib z_features (CE_X509 z_ca) (Some 5%N) 100) (pv_verify_signature z_lib z_features toy)
    None (Err Unimplemented) 0.

(** webpki knows no intermediates: the second certificate is the trust anchor. *)
Definition z_web : web_lib :=
  mk_web (fun a => match z_cert a with Some _ => true | None => false end)
    (fun d => match z_cert d with Some _ => true | None => false end)
    (fun _ a d t => match verify_certificate z_lib z_features (CE_X509 a) (CE_X509 d) (Some t) with Ok _ => true | _ => false end)
    (fun _ => true) (fun d h => match z_cert d with
       | Some c => match extract_san_dns_names z_lib c with Ok [s] => tls_hostname_match_impl s h | _ => false end
       | None => false end)
    (fun _ d msg sg => match z_cert d with
       | Some c => match dc_key c with Some k => bytes_eqb sg (z_sign k msg) | None => false end
       | None => false end).
Definition z_web_provider : provider pki_state :=
  mk_provider toy_random toy_secret true pv_set_hostname
    (wv_verify_certificate z_web (CE_X509 z_mid) (Some 5%N) 100) (wv_verify_signature z_web false toy)
    None (Err Unimplemented) 0.

(** ** Handshakes *)

Definition z_certificate : bytes := Eval vm_compute in
  hs_message 11 (vec 1 [] ++ vec 3 (vec 3 z_leaf ++ vec 2 [] ++ vec 3 z_mid ++ vec 2 [])).
Definition z_proof : bytes := Eval vm_compute in
  hs_message 15 (uint 2 0x0403 ++ vec 2 (z_sign [xcc] (server_signs toy (full_hellos ++ empty_ee ++ z_certificate)))).
Definition z_flight (ms : bytes) : bytes :=
  plain_handshake srv_hello ++ y_record None full_hellos 0 ty_handshake (ms ++ y_finished None full_hellos ms).
Definition z_rx : list rx_event := Eval vm_compute in [RxData (z_flight (empty_ee ++ z_certificate ++ z_proof))].
(** A CertificateVerify without a Certificate. *)
Definition z_bad_rx : list rx_event := Eval vm_compute in [RxData (z_flight (empty_ee ++ z_proof))].

Definition z_fresh (rx : list rx_event) : conn :=
  match cn_new toy (zeros 400) (zeros 300) rx silent with Ok c => c | _ => no_conn end.
Definition z_start : conn := Eval vm_compute in z_fresh z_rx.
Definition z_bad_start : conn := Eval vm_compute in z_fresh z_bad_rx.
Lemma z_start_new : cn_new toy (zeros 400) (zeros 300) z_rx silent = Ok z_start.
Proof. reflexivity. Qed.
Lemma z_bad_start_new : cn_new toy (zeros 400) (zeros 300) z_bad_rx silent = Ok z_bad_start.
Proof. reflexivity. Qed.

Definition z_conn : conn := Eval vm_compute in snd (cn_open toy z_provider small_config pv_new z_start).
Lemma z_conn_opened : cn_open toy z_provider small_config pv_new z_start = (Ok tt, z_conn).
Proof. vm_compute. reflexivity. Qed.
Definition z_web_conn : conn := Eval vm_compute in snd (cn_open toy z_web_provider small_config pv_new z_start).
Lemma z_web_conn_opened : cn_open toy z_web_provider small_config pv_new z_start = (Ok tt, z_web_conn).
Proof. vm_compute. reflexivity. Qed.
Lemma z_bad_panics : fst (cn_open toy z_provider small_config pv_new z_bad_start) = Panic PUnwrap.
Proof. vm_compute. reflexivity. Qed.
