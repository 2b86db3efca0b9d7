(** * Concrete complete connections, over the toy primitives

    A scripted TLS 1.3 server, written from the RFC functions of SpecKeys.v and
    SpecRecord.v, and the client model run against it.  Used only by the examples that show
    that the hypotheses of the theorems are met. *)
From Coq Require Import String List NArith Arith Bool.
From Coq.Strings Require Import Byte.
From Verif Require Import Base ParseBuffer Buffer Codes Extensions Crypto KeySchedule Config
  Handshake Record WriteBuffer Transport RecordReader ReadBuffer Connection Api
  BaseProofs SpecWire SpecKeys SpecRecord SpecSend Toy.
Import ListNotations.
Local Open Scope list_scope.

Definition some (o : option bytes) : bytes := match o with Some b => b | None => [] end.

(** ** The client's side *)

Definition toy_random : bytes := repeat x01 32.
Definition toy_secret : bytes := repeat x02 33.

(** A provider without a verifier, client certificate or signer. *)
Definition plain_provider : provider unit :=
  mk_provider toy_random toy_secret false (fun _ => ret tt) (fun _ _ => ret tt) (fun _ => ret tt)
    None (Err Unimplemented) 0.

Definition small_config : tls_config :=
  mk_config (Some [x61]) None None [SS_EcdsaSecp256r1Sha256] [NG_Secp256r1] None.

(** ** The server's side *)

Definition hs_message (t : N) (body : bytes) : bytes := uint 1 t ++ vec 3 body.
Definition extension (t : N) (body : bytes) : bytes := uint 2 t ++ vec 2 body.

Definition srv_secret : bytes := repeat x03 33.
Definition srv_hello : bytes :=
  hs_message 2 (uint 2 0x0303 ++ repeat x09 32 ++ vec 1 [] ++ uint 2 0x1301 ++ uint 1 0 ++
    vec 2 (extension 43 (uint 2 0x0304) ++ extension 51 (uint 2 0x0017 ++ vec 2 (c_pub toy srv_secret)))).
Definition plain_handshake (m : bytes) : bytes := uint 1 22 ++ uint 2 0x0303 ++ vec 2 m.
Definition empty_ee : bytes := hs_message 8 (vec 2 []).

Section Server.
Context (psk : option bytes) (client_hello : bytes).

Definition srv_dhe : bytes := some (c_dh toy srv_secret (c_pub toy toy_secret)).
Definition tr_hellos : bytes := client_hello ++ srv_hello.
Definition s_hs_traffic : bytes :=
  some (rfc_derive_secret toy (some (rfc_handshake toy psk srv_dhe)) "s hs traffic" tr_hellos).
Definition c_hs_traffic : bytes :=
  some (rfc_derive_secret toy (some (rfc_handshake toy psk srv_dhe)) "c hs traffic" tr_hellos).

(** The server's protected handshake record number [seq]. *)
Definition s_hs_record (seq : N) (ty : byte) (content : bytes) : bytes :=
  rfc_record toy (some (rfc_key toy s_hs_traffic)) (some (rfc_iv toy s_hs_traffic)) seq ty content 0.

(** Finished after the messages [before]. *)
Definition srv_finished (before : bytes) : bytes :=
  hs_message 20 (some (rfc_verify_data toy s_hs_traffic (tr_hellos ++ before))).

(** The whole flight: ServerHello, then [before] and Finished in one protected record. *)
Definition srv_flight (before : bytes) : bytes :=
  plain_handshake srv_hello ++ s_hs_record 0 ty_handshake (before ++ srv_finished before).

(** Application traffic: record number [seq] in each direction. *)
Definition tr_finished (before : bytes) : bytes := tr_hellos ++ before ++ srv_finished before.
Definition ap_traffic (label : string) (before : bytes) : bytes :=
  some (rfc_derive_secret toy (some (rfc_master toy psk srv_dhe)) label (tr_finished before)).
Definition srv_data (before : bytes) (seq : N) (ty : byte) (content : bytes) (pad : nat) : bytes :=
  let t := ap_traffic "s ap traffic" before in
  rfc_record toy (some (rfc_key toy t)) (some (rfc_iv toy t)) seq ty content pad.
End Server.

(** ** Running the client *)

(** Open a new connection with buffers of [rn] and [wn] bytes. *)
Definition open_with {V} (p : provider V) (cfg : tls_config) (v : V) (rn wn : nat)
  (rx : list rx_event) (tx : txst) : outcome tls_error (outcome tls_error unit * conn) :=
  c <-- cn_new toy (zeros rn) (zeros wn) rx tx ;; Ok (cn_open toy p cfg v c).

Definition silent : txst := mk_txst [] [] [].

(** The ClientHello the configuration leads to. *)
Definition hello_of {V} (p : provider V) (cfg : tls_config) (v : V) : bytes :=
  match open_with p cfg v 64 400 [] silent with
  | Ok (_, c) => match tx_log (wh_tx (cn_wh c)) with TxWrite b _ :: _ => skipn 5 b | _ => [] end
  | _ => []
  end.

Definition no_conn : conn :=
  mk_conn (rd_new [] [] (ks_r (ks_new toy))) dec_default
    (mk_whalf (mk_wbuf [] 0 None) (ks_w (ks_new toy)) silent Strict) (ks_shared (ks_new toy)) false.

Definition the_conn (o : outcome tls_error (outcome tls_error unit * conn)) : conn :=
  match o with Ok (_, c) => c | _ => no_conn end.

Definition plain_hello : bytes := Eval vm_compute in hello_of plain_provider small_config tt.

Definition plain_flight : bytes := Eval vm_compute in srv_flight None plain_hello empty_ee.

(** An opened connection whose server then sends [more]; the transport answers [tx]. *)
Definition opened_conn (rn wn : nat) (more : list rx_event) (tx : txst) :=
  open_with plain_provider small_config tt rn wn
    (RxData plain_flight :: more) tx.

(** The toy server's application keys, and its record number [seq]. *)
Definition toy_srv_key : bytes := Eval vm_compute in some (rfc_key toy (ap_traffic None plain_hello "s ap traffic" empty_ee)).
Definition toy_srv_iv : bytes := Eval vm_compute in some (rfc_iv toy (ap_traffic None plain_hello "s ap traffic" empty_ee)).
Definition toy_data (seq : N) (ty : byte) (content : bytes) (pad : nat) : bytes :=
  rfc_record toy toy_srv_key toy_srv_iv seq ty content pad.

(** The connection just opened, whatever comes next. *)
Definition toy_conn (more : list rx_event) : conn := Eval vm_compute in the_conn (opened_conn 400 300 more silent).
Lemma toy_conn_opened more : opened_conn 400 300 more silent = Ok (Ok tt, toy_conn more).
Proof. vm_compute. reflexivity. Qed.

Lemma opened_established rx tx c : opened_conn 400 300 rx tx = Ok (Ok tt, c) -> established toy 300 c.
Proof.
  unfold opened_conn, open_with. destruct (cn_new toy (zeros 400) (zeros 300) (RxData plain_flight :: rx) tx) as [c0|e|x| |] eqn:E; try discriminate.
  cbn [obind]. intros H. assert (E2 : cn_open toy plain_provider small_config tt c0 = (Ok tt, c)) by congruence.
  exists unit, plain_provider, small_config, tt, (zeros 400), (zeros 300), (RxData plain_flight :: rx), tx, c0.
  split; [reflexivity|]. split; [exact E|]. split; [reflexivity|exact E2].
Qed.
Lemma toy_conn_established rx : established toy 300 (toy_conn rx).
Proof. eapply opened_established, toy_conn_opened. Qed.

Example toy_opens :
  match run toy [OpRead (zeros 4); OpWrite [x31; x32]; OpFlush; OpClose] (toy_conn [RxData (toy_data 0 ty_data [x68; x69] 3)]) with
  | ([(_, Ok (VRead 2 [x68; x69; x00; x00])); (_, Ok (VCount 2)); (_, Ok VUnit); (_, Ok VUnit)], _) => true
  | _ => false
  end = true.
Proof. vm_compute. reflexivity. Qed.
