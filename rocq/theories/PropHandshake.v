(** * C26 to C30, C40, C45: what a handshake that succeeded guarantees, and what it does not *)
From Coq Require Import String List NArith Arith Bool Lia ZArith.
From Coq.Strings Require Import Byte.
From Coq Require Import ZifyBool ZifyNat ZifyN.
From Verif Require Import Base ParseBuffer Buffer Codes Extensions Crypto KeySchedule Config Handshake Record WriteBuffer
  Transport RecordReader ReadBuffer Connection Api BaseProofs Toy ParseProofs SpecWire SpecCodes SpecMessages SpecKeys
  WireProofs SpecRecord SpecRead SpecSend ReadProofs ToyRun SpecHandshake AcceptProofs LocalProofs OpenProofs ToyServer.
Import ListNotations.
Local Open Scope list_scope.

(** ** C26 *)

(** If [open] returns Ok: the ClientHello went out; what came in is a ServerHello with a key
    share, records that carry messages, and the rest; the secrets are those of RFC 8446 for the
    shared secret and the two hellos; and every Finished among the messages (there is one)
    carries the RFC value over the hellos and all messages before it. *)
Theorem C26_finished : forall V C (p : provider V) cfg v rbuf wbuf rx tx c0 c, crypto_ok C ->
  cn_new C rbuf wbuf rx tx = Ok c0 -> cn_open C p cfg v c0 = (Ok tt, c) ->
  exists x more, sent_log c = tx_log tx ++ goes_out (hello_record (x_hello x)) ++ more /\
    flight_in C (stream rx) x (incoming c) /\
    secrets_ok C (option_map fst (cfg_psk cfg)) (p_secret p) x /\
    finishes C x.
Proof.
  intros V C p cfg v rbuf wbuf rx tx c0 c HC Hn Ho.
  destruct (handshake_result C p cfg rbuf wbuf rx tx c0 v c HC Hn Ho) as (x & v0 & v1 & ms & _ & Hf & Hs & Hfin & _ & _ & Hl & _).
  eauto 8.
Qed.

(** ** C27 *)

(** Every Certificate and CertificateVerify that was received was handed to the verifier, with
    the transcript that ends with it, and accepted.  Missing: that there was one. *)
Theorem C27_submitted_partial : forall V C (p : provider V) cfg v rbuf wbuf rx tx c0 c, crypto_ok C ->
  cn_new C rbuf wbuf rx tx = Ok c0 -> cn_open C p cfg v c0 = (Ok tt, c) -> p_has_verifier p = true ->
  exists x v0 v1, told p cfg v v0 /\ flight_in C (stream rx) x (incoming c) /\
    secrets_ok C (option_map fst (cfg_psk cfg)) (p_secret p) x /\ finishes C x /\
    accepts_all p (x_hellos x) (x_msgs x) v0 v1.
Proof.
  intros V C p cfg v rbuf wbuf rx tx c0 c HC Hn Ho Hv.
  destruct (handshake_result C p cfg rbuf wbuf rx tx c0 v c HC Hn Ho) as (x & v0 & v1 & ms & Ht & Hf & Hs & Hfin & Ha & _).
  exists x, v0, v1. auto 8.
Qed.

(** With a verifier that rejects every certificate and every signature, [open] succeeds only on
    a flight without Certificate and CertificateVerify... *)
Theorem C27_rejected_partial : forall V C (p : provider V) cfg v rbuf wbuf rx tx c0 c, crypto_ok C ->
  cn_new C rbuf wbuf rx tx = Ok c0 -> cn_open C p cfg v c0 = (Ok tt, c) -> p_has_verifier p = true ->
  (forall tr ce v1 v2, p_verify_cert p tr ce v1 <> (Ok tt, v2)) ->
  (forall cv v1 v2, p_verify_sig p cv v1 <> (Ok tt, v2)) ->
  exists x, flight_in C (stream rx) x (incoming c) /\ finishes C x /\
    Forall (fun m => match snd m with M_Certificate _ _ _ | M_CertificateVerify _ _ => False | _ => True end) (x_msgs x).
Proof.
  intros V C p cfg v rbuf wbuf rx tx c0 c HC Hn Ho Hv Hc Hs.
  destruct (C27_submitted_partial V C p cfg v rbuf wbuf rx tx c0 c HC Hn Ho Hv) as (x & v0 & v1 & _ & Hf & _ & Hfin & Ha).
  exists x. split; [exact Hf|]. split; [exact Hfin|].
  induction Ha; [constructor|exfalso; eapply Hc; eauto|exfalso; eapply Hs; eauto|now constructor].
Qed.

(** ** C28 *)

(** After the ServerHello, [open] took messages from three kinds of records: change_cipher_spec
    (none), protected ones that open under the server's handshake key and the next sequence
    number, and handshake records in the clear.  Missing: that there are none of the last kind. *)
Theorem C28_records_partial : forall V C (p : provider V) cfg v rbuf wbuf rx tx c0 c, crypto_ok C ->
  cn_new C rbuf wbuf rx tx = Ok c0 -> cn_open C p cfg v c0 = (Ok tt, c) ->
  exists x h0 f0 rs, stream rx = wire_of ((h0, f0) :: rs) ++ incoming c /\ prefix (x_shello x) f0 /\
    secrets_ok C (option_map fst (cfg_psk cfg)) (p_secret p) x /\
    carried C (x_skey x) (x_siv x) 0 rs (map fst (x_msgs x)).
Proof.
  intros V C p cfg v rbuf wbuf rx tx c0 c HC Hn Ho.
  destruct (C26_finished V C p cfg v rbuf wbuf rx tx c0 c HC Hn Ho) as (x & _ & _ & Hf & Hs & _).
  destruct Hf as (h0 & junk & rs & Hw & _ & _ & _ & _ & Hc & _).
  exists x, h0, (x_shello x ++ junk), rs. split; [exact Hw|]. split; [now exists junk|auto].
Qed.

(** ** C29 *)

(** The ServerHello names a cipher suite and a group the library knows, and a key share with
    which the key agreement succeeded.  Missing: that the client offered them. *)
Theorem C29_known_partial : forall V C (p : provider V) cfg v rbuf wbuf rx tx c0 c, crypto_ok C ->
  cn_new C rbuf wbuf rx tx = Ok c0 -> cn_open C p cfg v c0 = (Ok tt, c) ->
  exists x, flight_in C (stream rx) x (incoming c) /\
    In (x_suite x) (map fst iana_cipher_suite) /\ In (x_group x) (map fst iana_named_group) /\
    share_of (x_items x) (x_group x) (x_share x) /\ c_dh C (p_secret p) (x_share x) = Some (x_dhe x).
Proof.
  intros V C p cfg v rbuf wbuf rx tx c0 c HC Hn Ho.
  destruct (C26_finished V C p cfg v rbuf wbuf rx tx c0 c HC Hn Ho) as (x & _ & _ & Hf & [Hd _] & _).
  exists x. split; [exact Hf|]. destruct Hf as (h0 & junk & rs & _ & _ & _ & Hr & Hsh & _).
  destruct Hr as (len & body & _ & (ver & rnd & ses & comp & (_ & _ & _ & Hin & _) & _) & _).
  split; [exact Hin|]. split; [|auto]. destruct Hsh as (_ & _ & _ & _ & _ & Hg & _). exact Hg.
Qed.

(** ** C30 *)

(** The client's answer: see [answer]; it goes out in protected records under the client's
    handshake key, numbered from 0, and nothing else follows the ClientHello. *)
Theorem C30_answer : forall V C (p : provider V) cfg v rbuf wbuf rx tx c0 c, crypto_ok C ->
  cn_new C rbuf wbuf rx tx = Ok c0 -> cn_open C p cfg v c0 = (Ok tt, c) ->
  exists x ms, flight_in C (stream rx) x (incoming c) /\
    secrets_ok C (option_map fst (cfg_psk cfg)) (p_secret p) x /\
    answer C p (x_client x) (x_hellos x ++ raw (x_msgs x)) (answered x) ms /\
    sent_log c = tx_log tx ++ goes_out (hello_record (x_hello x)) ++ protected_flight C (x_ckey x) (x_civ x) 0 ms.
Proof.
  intros V C p cfg v rbuf wbuf rx tx c0 c HC Hn Ho.
  destruct (handshake_result C p cfg rbuf wbuf rx tx c0 v c HC Hn Ho) as (x & v0 & v1 & ms & _ & Hf & Hs & _ & _ & Ha & Hl & _).
  eauto 8.
Qed.

(** ** C45 *)

(** The keys of the open connection are those of the application traffic secrets of RFC 8446. *)
Theorem C45_session_keys : forall V C (p : provider V) cfg v rbuf wbuf rx tx c0 c, crypto_ok C ->
  cn_new C rbuf wbuf rx tx = Ok c0 -> cn_open C p cfg v c0 = (Ok tt, c) ->
  exists x, flight_in C (stream rx) x (incoming c) /\ finishes C x /\
    secrets_ok C (option_map fst (cfg_psk cfg)) (p_secret p) x /\
    session_keys C (option_map fst (cfg_psk cfg)) x "c ap traffic" (write_key c) (write_iv c) /\
    session_keys C (option_map fst (cfg_psk cfg)) x "s ap traffic" (read_key c) (read_iv c) /\
    (x_after x = [] -> key_messages x = x_hellos x ++ raw (x_before x) ++ x_finished x).
Proof.
  intros V C p cfg v rbuf wbuf rx tx c0 c HC Hn Ho.
  destruct (handshake_result C p cfg rbuf wbuf rx tx c0 v c HC Hn Ho) as (x & v0 & v1 & ms & _ & Hf & Hs & Hfin & _ & _ & _ & Hw & Hr).
  exists x. repeat (split; [assumption|]). intros Ha. unfold key_messages, x_msgs. rewrite Ha. destruct (answered x); [|reflexivity].
  unfold raw. now rewrite map_app, concat_app; cbn [map concat fst]; rewrite app_nil_r.
Qed.

(** ** C40 *)

Section Length.
Context (C : crypto).

(** The length field of a handshake message makes no difference: whatever is read with one
    value of it is read with any other. *)
Theorem C40_refuted : forall tr t l l' rest h tr' q, length l = 3 -> length l' = 3 ->
  read_server_handshake C tr (pb_new (t :: l ++ rest)) = (Ok (h, tr'), q) ->
  exists tr2 q2, read_server_handshake C tr (pb_new (t :: l' ++ rest)) = (Ok (h, tr2), q2).
Proof.
  intros tr t l l' rest h tr' q Hl Hl' H. rewrite pb_new_at in H. apply read_message_inv in H as (b & y & h0 & E & _ & Hp & -> & ->).
  apply parses_split in Hp as (t0 & len & body & ty & -> & Hlen & Ht & Hp). cbn [app] in E. injection E as <- E.
  rewrite <- app_assoc in E. apply app_len_inj in E as [<- ->]; [|congruence].
  exists (tr ++ t :: l' ++ body). eexists.
  replace (pb_new (t :: l' ++ body ++ y)) with (at_pos [] (t :: l' ++ body) y)
    by (unfold at_pos, pb_new; cbn [app]; now rewrite <- app_assoc).
  apply read_message. eapply parses_join; eauto.
Qed.
End Length.

(** ** What does not hold *)

(** The client opens against the server that sends the records [w]. *)
Definition lets_in {V} (p : provider V) (v : V) (w : bytes) : Prop :=
  exists c0 c, cn_new toy (zeros 400) (zeros 300) [RxData w] silent = Ok c0 /\
    cn_open toy p small_config v c0 = (Ok tt, c).

Lemma lets_in_run {V} (p : provider V) v w :
  fst match opening p v [RxData w] with Ok r => r | _ => (Diverge, no_conn) end = Ok tt -> lets_in p v w.
Proof.
  unfold opening, open_with, lets_in. destruct (cn_new toy (zeros 400) (zeros 300) [RxData w] silent) as [c0|e|x| |]; cbn [obind fst]; try discriminate.
  destruct (cn_open toy p small_config v c0) as [o c] eqn:E. cbn [fst]. intros ->. eauto.
Qed.

Lemma no_one_lets_in : lets_in no_one tt plain_flight.
Proof. apply lets_in_run. vm_compute. reflexivity. Qed.

(** C27: a verifier is configured and accepts nothing, no pre-shared key is configured, and
    [open] returns Ok: the server sent no Certificate. *)
Theorem C27_refuted : exists (p : provider unit) w, crypto_ok toy /\
  p_has_verifier p = true /\ cfg_psk small_config = None /\
  (forall tr ce v v', p_verify_cert p tr ce v <> (Ok tt, v')) /\ (forall cv v v', p_verify_sig p cv v <> (Ok tt, v')) /\
  lets_in p tt w.
Proof.
  exists no_one, plain_flight. split; [exact toy_ok|]. split; [reflexivity|]. split; [reflexivity|].
  split; [intros; discriminate|]. split; [intros; discriminate|]. exact no_one_lets_in.
Qed.

(** C28: the server's whole flight in handshake records in the clear. *)
Definition clear_flight : bytes := Eval vm_compute in
  plain_handshake srv_hello ++ plain_handshake empty_ee ++ plain_handshake (srv_finished None plain_hello empty_ee).
Theorem C28_refuted : crypto_ok toy /\ lets_in plain_provider tt clear_flight /\
  exists h1 f1 h2 f2 h3 f3, clear_flight = wire_of [(h1, f1); (h2, f2); (h3, f3)] /\
    framed h1 f1 /\ framed h2 f2 /\ framed h3 f3 /\ hd_error h2 = Some ty_handshake /\ hd_error h3 = Some ty_handshake.
Proof.
  split; [exact toy_ok|]. split; [apply lets_in_run; vm_compute; reflexivity|].
  exists (firstn 5 (plain_handshake srv_hello)), srv_hello, (firstn 5 (plain_handshake empty_ee)), empty_ee,
    (firstn 5 (plain_handshake (srv_finished None plain_hello empty_ee))), (srv_finished None plain_hello empty_ee).
  split; [vm_compute; reflexivity|]. repeat split; vm_compute; reflexivity.
Qed.

(** C29: the client offers TLS 1.3, one cipher suite (0x1301 here) and a key share for
    secp256r1 (23); the server may choose another suite, no version or another one, another
    group, and may ask for a new ClientHello (the special random of 4.1.3). *)
Definition retry_random : bytes := Eval vm_compute in
  map byte_of [207; 33; 173; 116; 229; 154; 97; 17; 190; 29; 140; 2; 30; 101; 184; 145;
               194; 162; 17; 22; 122; 187; 140; 94; 7; 158; 9; 226; 200; 168; 51; 156]%N.
Definition sh_other_suite : bytes := Eval vm_compute in
  hello_with 0x0303 (repeat x09 32) 0x1302 (ext_version 0x0304 ++ ext_share 23 (c_pub toy srv_secret)).
Definition sh_no_version : bytes := Eval vm_compute in
  hello_with 0x0303 (repeat x09 32) 0x1301 (ext_share 23 (c_pub toy srv_secret)).
Definition sh_other_version : bytes := Eval vm_compute in
  hello_with 0x0303 (repeat x09 32) 0x1301 (ext_version 0x0303 ++ ext_share 23 (c_pub toy srv_secret)).
Definition sh_other_group : bytes := Eval vm_compute in
  hello_with 0x0303 (repeat x09 32) 0x1301 (ext_version 0x0304 ++ ext_share 29 (c_pub toy srv_secret)).
Definition sh_retry : bytes := Eval vm_compute in
  hello_with 0x0303 retry_random 0x1301 (ext_version 0x0304 ++ ext_share 23 (c_pub toy srv_secret)).
Definition flights_29 : list bytes := Eval vm_compute in
  map flight_with [sh_other_suite; sh_no_version; sh_other_version; sh_other_group; sh_retry].
Theorem C29_refuted : crypto_ok toy /\ code_point toy = 0x1301%N /\
  Forall (lets_in plain_provider tt) flights_29 /\
  flights_29 = map flight_with [sh_other_suite; sh_no_version; sh_other_version; sh_other_group; sh_retry].
Proof.
  split; [exact toy_ok|]. split; [reflexivity|]. split; [|vm_compute; reflexivity].
  repeat (apply Forall_cons; [apply lets_in_run; vm_compute; reflexivity|]). constructor.
Qed.

(** C40, through the API: the announced length of the EncryptedExtensions is 127, its body
    has 2 bytes, and Finished follows in the same record. *)
Definition long_ee : bytes := [x08; x00; x00; x7f; x00; x00].
Definition long_flight : bytes := Eval vm_compute in
  plain_handshake srv_hello ++ y_record None full_hellos 0 ty_handshake (long_ee ++ y_finished None full_hellos long_ee).
Theorem C40_refuted_open : crypto_ok toy /\ lets_in plain_provider tt long_flight.
Proof. split; [exact toy_ok|]. apply lets_in_run. vm_compute. reflexivity. Qed.

(** ** Concrete cases *)

(** A whole handshake with change_cipher_spec, coalesced messages, certificate request,
    certificate, signature; the client has a certificate and a signer (see ToyServer.v). *)
Example full_meets : crypto_ok toy /\ cn_new toy (zeros 400) (zeros 300) full_rx silent = Ok full_start /\
  cn_open toy full_provider small_config 0 full_start = (Ok tt, full_conn) /\ p_has_verifier full_provider = true.
Proof. split; [exact toy_ok|]. split; [exact full_start_new|]. split; [exact full_conn_opened|reflexivity]. Qed.

(** In it the verifier was called three times, and the client answered with three messages. *)
Example full_told_verified :
  exists x v1, flight_in toy (stream full_rx) x (incoming full_conn) /\
    accepts_all full_provider (x_hellos x) (x_msgs x) 1 v1.
Proof.
  destruct (C27_submitted_partial _ toy full_provider small_config 0 _ _ _ _ _ _ toy_ok full_start_new full_conn_opened eq_refl)
    as (x & v0 & v1 & Ht & Hf & _ & _ & Ha). cbn in Ht. injection Ht as <-. eauto.
Qed.
Example full_sent : length (sent_log full_conn) = 8.
Proof. reflexivity. Qed.

(** The hypotheses of C27_rejected_partial are met by the run of C27_refuted. *)
Example rejected_meets : p_has_verifier no_one = true /\ lets_in no_one tt plain_flight /\
  (forall tr ce v v', p_verify_cert no_one tr ce v <> (Ok tt, v')) /\ (forall cv v v', p_verify_sig no_one cv v <> (Ok tt, v')).
Proof.
  split; [reflexivity|]. split; [exact no_one_lets_in|split; intros; discriminate].
Qed.

Example length_ignored : exists h tr q,
  read_server_handshake toy [] (pb_new (x08 :: [x00; x00; x02] ++ [x00; x00])) = (Ok (h, tr), q).
Proof. vm_compute. eauto. Qed.

Print Assumptions C26_finished.
Print Assumptions C27_submitted_partial.
Print Assumptions C27_rejected_partial.
Print Assumptions C27_refuted.
Print Assumptions C28_records_partial.
Print Assumptions C28_refuted.
Print Assumptions C29_known_partial.
Print Assumptions C29_refuted.
Print Assumptions C30_answer.
Print Assumptions C40_refuted.
Print Assumptions C40_refuted_open.
Print Assumptions C45_session_keys.
