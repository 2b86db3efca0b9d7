(** * C50: what can make [open] panic *)
From Coq Require Import String List NArith Arith Bool Lia ZArith.
From Coq.Strings Require Import Byte.
From Verif Require Import Base ParseBuffer Buffer Codes Extensions Crypto KeySchedule Config Handshake Record WriteBuffer
  Transport RecordReader ReadBuffer Connection Api SpecWire SpecKeys SpecRecord SpecRead SpecMessages SpecHandshake SpecPanic PanicProofs
  Toy ToyRun ToyServer.
Import ListNotations.
Local Open Scope list_scope.

(** Whatever the server sends and whatever the transport does, [open] on a new connection panics
    only if one of the user's functions does, if the client's certificate is a raw public key, if
    a signature is longer than the space for it, if the server sends 2^64 bytes, or if it sends a
    record that is authentic and empty. *)
Theorem C50_causes_partial : forall C V (p : provider V) cfg v rbuf wbuf rx tx c0 x c,
  crypto_ok C -> cn_new C rbuf wbuf rx tx = Ok c0 -> cn_open C p cfg v c0 = (Panic x, c) ->
  open_panics C p cfg (stream rx) x.
Proof. intros. eapply open_panic_cause; eauto. Qed.

(** A user whose functions do not panic, who has no raw public key, whose signer does not fail and whose signatures fit. *)
Definition sound_provider {V} (p : provider V) : Prop :=
  (forall x, ~ provider_panics p x) /\
  (forall key, p_client_cert p <> Some (CE_RawPublicKey key)) /\
  (forall sign scheme m, p_signer p = Ok (sign, scheme) -> exists sg, sign m = Some sg /\ length sg <= p_sig_cap p).

(** For such a user only the empty record is left. *)
Theorem C50_sound : forall C V (p : provider V) cfg v rbuf wbuf rx tx c0 x c,
  crypto_ok C -> sound_provider p -> (N.of_nat (length (stream rx)) < 2 ^ 64)%N ->
  cn_new C rbuf wbuf rx tx = Ok c0 -> cn_open C p cfg v c0 = (Panic x, c) ->
  x = PUnwrap /\ empty_record C p cfg (stream rx).
Proof.
  intros C V p cfg v rbuf wbuf rx tx c0 x c HC (H1 & H2 & H3) Hl Hnew H.
  apply (C50_causes_partial C V p cfg v rbuf wbuf rx tx c0 x c HC Hnew) in H.
  destruct H as [x Hx|key Hk|sign scheme m Hs Hm|He|Hn].
  - now apply H1 in Hx.
  - now apply H2 in Hk.
  - destruct (H3 sign scheme m Hs) as (sg & Esg & Hle). specialize (Hm sg Esg). lia.
  - auto.
  - lia.
Qed.

(** A record of the toy server with nothing inside. *)
Definition hollow_record : bytes := Eval vm_compute in
  let t := y_traffic None full_hellos in
  let '(ct, tag) := c_seal toy (some (rfc_key toy t)) (rfc_nonce (some (rfc_iv toy t)) 0) (rfc_header 16) [] in
  rfc_header 16 ++ ct ++ tag.
Definition hollow_rx : list rx_event := Eval vm_compute in [RxData (plain_handshake srv_hello ++ hollow_record)].
Definition hollow_start : conn := Eval vm_compute in
  match cn_new toy (zeros 400) (zeros 300) hollow_rx silent with Ok c => c | _ => no_conn end.
Lemma hollow_start_new : cn_new toy (zeros 400) (zeros 300) hollow_rx silent = Ok hollow_start.
Proof. reflexivity. Qed.
Definition hollow_end : conn := Eval vm_compute in snd (cn_open toy full_provider small_config 0 hollow_start).
Lemma hollow_panics : cn_open toy full_provider small_config 0 hollow_start = (Panic PUnwrap, hollow_end).
Proof. vm_compute. reflexivity. Qed.

Lemma full_sound : sound_provider full_provider.
Proof.
  split; [|split].
  - intros x [(n & v & H)|[(tr & ce & v & H)|[(cv & v & H)|H]]]; discriminate.
  - intros key H. discriminate.
  - intros sign scheme m [= <- _]. eexists. split; [reflexivity|]. change (length (firstn 6 (t_hash m)) <= 16). rewrite firstn_length. lia.
Qed.

(** The server can make [open] panic, whoever the user. *)
Theorem C50_refuted : exists C V (p : provider V) cfg v rbuf wbuf rx tx c0 c,
  crypto_ok C /\ sound_provider p /\ cn_new C rbuf wbuf rx tx = Ok c0 /\ cn_open C p cfg v c0 = (Panic PUnwrap, c).
Proof.
  exists toy, nat, full_provider, small_config, 0, (zeros 400), (zeros 300), hollow_rx, silent, hollow_start, hollow_end.
  split; [exact toy_ok|]. split; [exact full_sound|]. split; [exact hollow_start_new|exact hollow_panics].
Qed.

(** The hypotheses of the theorems are met by this run: its server sends such a record. *)
Example hollow_meets : empty_record toy full_provider small_config (stream hollow_rx).
Proof.
  refine (proj2 (C50_sound toy nat full_provider small_config 0 (zeros 400) (zeros 300) hollow_rx silent hollow_start PUnwrap hollow_end
    toy_ok full_sound _ hollow_start_new hollow_panics)). vm_compute. reflexivity.
Qed.

Print Assumptions C50_causes_partial.
Print Assumptions C50_sound.
Print Assumptions C50_refuted.
