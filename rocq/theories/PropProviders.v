(** * C52: the providers that come with the crate; C34: the alert when signing fails *)
From Coq Require Import String List NArith Arith Bool Lia ZArith.
From Coq.Strings Require Import Byte.
From Verif Require Import Base ParseBuffer Buffer Codes Extensions Crypto KeySchedule Config Handshake Record WriteBuffer
  Transport RecordReader ReadBuffer Connection Api Providers SpecWire SpecKeys SpecRecord SpecSend SpecRead SpecMessages SpecHandshake SpecComplete SpecPanic
  SpecProviders WireProofs KeyProofs SpecHello PropHello HsProofs CompleteProofs PropComplete PanicProofs PropPanic ProviderProofs Toy ToyRun ToyServer.
Import ListNotations.
Local Open Scope list_scope.

(** ** Who is let in *)

(** Two clients that let every server in and are otherwise the same cannot be told apart:
    [open] returns the same and leaves the same connection behind, whatever the server and the
    transport do. *)
Theorem C52_same : forall V W C (p : provider V) (q : provider W) cfg v w c,
  lenient p -> lenient q -> same_client p q -> cn_open C p cfg v c = cn_open C q cfg w c.
Proof. intros. now apply open_alike. Qed.

(** So a provider with [NoVerify] is one without a verifier, and an [UnsecureProvider] that was
    given nothing is a provider with the default methods. *)
Theorem C52_no_verify : forall V C (p : provider V) cfg v c, p_has_verifier p = false ->
  cn_open C (with_no_verify p) cfg tt c = cn_open C p cfg v c.
Proof.
  intros V C p cfg v c E. apply open_alike.
  - intros _. repeat split; reflexivity.
  - intros E'. congruence.
  - repeat split; reflexivity.
Qed.

Theorem C52_defaults : forall C ec rsa random secret cfg c,
  cn_open C (unsecure_provider ec rsa random secret []) cfg tt c = cn_open C (default_provider rsa random secret) cfg tt c.
Proof.
  intros. apply open_alike; try (intros [=]; fail).
  split; [reflexivity|]. split; [reflexivity|]. split; [reflexivity|]. intros H. now contradiction H.
Qed.

(** ** The builder calls *)

Lemma last_snoc {A} (l : list A) a d : last (l ++ [a]) d = a.
Proof. induction l as [|b l IH]; [reflexivity|]. cbn [app last]. destruct (l ++ [a]) eqn:E; [destruct l; discriminate|exact IH]. Qed.

Lemma calls_fields bs : forall u,
  up_random (fold_left call1 bs u) = up_random u /\ up_secret (fold_left call1 bs u) = up_secret u.
Proof.
  induction bs as [|b bs IH]; intros u; [auto|]. cbn [fold_left]. destruct (IH (call1 u b)) as [-> ->]. now destruct b.
Qed.
Lemma calls_key random secret bs : up_key (fold_left call1 bs (up_new random secret)) = last_key bs.
Proof.
  induction bs as [|b bs IH] using rev_ind; [reflexivity|]. rewrite fold_left_app. cbn [fold_left].
  unfold last_key. rewrite map_app, concat_app, map_app. destruct b; cbn [map concat app call1 up_with_key up_with_cert up_key].
  - now rewrite last_snoc.
  - rewrite app_nil_r. exact IH.
Qed.
Lemma calls_cert random secret bs : up_cert (fold_left call1 bs (up_new random secret)) = last_cert bs.
Proof.
  induction bs as [|b bs IH] using rev_ind; [reflexivity|]. rewrite fold_left_app. cbn [fold_left].
  unfold last_cert. rewrite map_app, concat_app, map_app. destruct b; cbn [map concat app call1 up_with_key up_with_cert up_cert].
  - rewrite app_nil_r. exact IH.
  - now rewrite last_snoc.
Qed.

Section Fields.
Context (ec : ec_lib) (rsa : bool) (random secret : bytes) (bs : list provider_call).
Let p := unsecure_provider ec rsa random secret bs.

Lemma up_random_is : p_random p = random.
Proof. exact (proj1 (calls_fields bs (up_new random secret))). Qed.
Lemma up_secret_is : p_secret p = secret.
Proof. exact (proj2 (calls_fields bs (up_new random secret))). Qed.
Lemma up_cert_is : p_client_cert p = last_cert bs.
Proof. exact (calls_cert random secret bs). Qed.
Lemma up_signer_is : p_signer p = match last_key bs with
  | Some der => match ec_from_sec1 ec der with Some key => Ok (ec_sign ec key, SS_EcdsaSecp256r1Sha256) | None => Err InvalidPrivateKey end
  | None => Err InvalidPrivateKey
  end.
Proof.
  change (p_signer p) with (up_signer ec (fold_left call1 bs (up_new random secret))). unfold up_signer. rewrite calls_key.
  destruct (last_key bs) as [der|]; [|reflexivity]. cbn [ok_or obind]. now destruct (ec_from_sec1 ec der).
Qed.

Lemma unsecure_answers C client tr req ms :
  unsecure_answer C ec rsa bs client tr req ms <-> signature_fits C p tr req /\ answer C p client tr req ms.
Proof.
  unfold unsecure_answer, signature_fits, answer, own_certs. rewrite up_cert_is, up_signer_is.
  change (p_sig_cap p) with (if rsa then 512 else 104).
  destruct req as [ctx|]; [|tauto]. destruct (last_cert bs) as [[d|k]|].
  - split.
    + intros (der & key & sg & v & E1 & E2 & E3 & H1 & H2 & H3 & ->). rewrite E1, E2. split.
      * right. split; [eauto|]. split; [exact H2|]. intros sign scheme [= <- <-] sg' Hsg'. unfold own_certs in Hsg'. rewrite E3 in Hsg'. now injection Hsg' as <-.
      * exists (ec_sign ec key), SS_EcdsaSecp256r1Sha256, sg, v. split; [reflexivity|]. split; [exact E3|]. split; [exact H3|reflexivity].
    + intros [[?|(_ & H2 & H1)] (sign & scheme & sg & v & E & E3 & H3 & ->)]; [discriminate|].
      destruct (last_key bs) as [der|]; [|discriminate]. destruct (ec_from_sec1 ec der) as [key|] eqn:Ek; [|discriminate].
      injection E as <- <-. exists der, key, sg, v. split; [reflexivity|]. split; [exact Ek|]. split; [exact E3|]. split; [exact (H1 _ SS_EcdsaSecp256r1Sha256 eq_refl sg E3)|].
      split; [exact H2|]. split; [exact H3|reflexivity].
  - split; [intros []|]. intros [[?|([d E] & _)] _]; discriminate.
  - split; [intros H; split; [now left|exact H]|intros [_ H]; exact H].
Qed.
End Fields.

(** ** When the handshake succeeds *)

(** With an [UnsecureProvider], whatever builder calls made it and over a transport that works,
    [open] succeeds exactly for the flights the client can follow whose Finished is right, if the
    client can answer: nothing is asked of certificates and signatures.  If the server asks for a
    certificate the answer is made with the certificate and the key given last. *)
Theorem C52_exactly : forall C ec rsa random secret bs cfg wbuf tx, crypto_ok C -> length random = 32 ->
  Forall (eq WrOk) (tx_wr tx) -> Forall (eq FlOk) (tx_fl tx) ->
  exists hello,
    (forall rbuf rx c0, cn_new C rbuf wbuf rx tx = Ok c0 ->
       hello_size cfg (length (c_pub C secret)) (hash_len C) <= length wbuf ->
       exists evs, sent_log (snd (cn_open C (unsecure_provider ec rsa random secret bs) cfg tt c0)) =
         tx_log tx ++ goes_out (SpecHandshake.hello_record hello) ++ evs) /\
    forall rbuf rx c0, cn_new C rbuf wbuf rx tx = Ok c0 -> chunked rx ->
      (fst (cn_open C (unsecure_provider ec rsa random secret bs) cfg tt c0) = Ok tt <->
       hello_size cfg (length (c_pub C secret)) (hash_len C) <= length wbuf /\
       exists x rest ms, x_hello x = hello /\ whole_flight C (length rbuf) (stream rx) x rest /\
         secrets_ok C (option_map fst (cfg_psk cfg)) secret x /\ finishes C x /\
         unsecure_answer C ec rsa bs (x_client x) (x_hellos x ++ raw (x_msgs x)) (answered x) ms /\
         Forall (fun m => length m + 22 <= length wbuf) ms).
Proof.
  intros C ec rsa random secret bs cfg wbuf tx HC Hr H1 H2.
  destruct (C51_exactly unit C (unsecure_provider ec rsa random secret bs) cfg wbuf tx tt HC) as (hello & Hsent & Hex); auto.
  { now rewrite up_random_is. }
  rewrite up_secret_is in Hsent, Hex. exists hello. split.
  { intros rbuf rx c0 Hn Hs. apply (Hsent rbuf rx c0 tt Hn); [|exact Hs]. unfold told. now destruct (cfg_server_name cfg). }
  intros rbuf rx c0 Hn Hch. rewrite (Hex rbuf rx c0 Hn Hch). split.
  - intros (Hs & x & rest & v0 & v1 & ms & _ & E1 & E2 & E3 & E4 & _ & E5 & E6 & E7). split; [exact Hs|]. exists x, rest, ms.
    split; [exact E1|]. split; [exact E2|]. split; [exact E3|]. split; [exact E4|]. split; [|exact E7].
    apply unsecure_answers with (random := random) (secret := secret). now split.
  - intros (Hs & x & rest & ms & E1 & E2 & E3 & E4 & E5 & E6). split; [exact Hs|]. exists x, rest, tt, tt, ms.
    apply unsecure_answers with (random := random) (secret := secret) in E5 as [E5 E7].
    split; [unfold told; now destruct (cfg_server_name cfg)|]. split; [exact E1|]. split; [exact E2|]. split; [exact E3|]. split; [exact E4|].
    split; [intros [=]|]. auto.
Qed.

(** Anyone is let in.  Take any key share, and any messages [before] the Finished that the client
    can decode and that ask for no certificate: whatever Certificate and CertificateVerify are
    among them, and even if there are none.  The rest of the flight can be computed from what the
    client sends, and with any way of cutting it into records, [open] succeeds. *)
Theorem C52_anyone : forall C ec rsa random secret bs cfg wbuf tx, crypto_ok C -> length random = 32 ->
  hello_size cfg (length (c_pub C secret)) (hash_len C) <= length wbuf -> hash_len C + 26 <= length wbuf ->
  Forall (eq WrOk) (tx_wr tx) -> Forall (eq FlOk) (tx_fl tx) ->
  exists hello,
    (forall rbuf rx c0, cn_new C rbuf wbuf rx tx = Ok c0 ->
       exists evs, sent_log (snd (cn_open C (unsecure_provider ec rsa random secret bs) cfg tt c0)) =
         tx_log tx ++ goes_out (SpecHandshake.hello_record hello) ++ evs) /\
    forall shello suite items group share dhe before,
    c_dh C secret share = Some dhe -> requests before = [] -> ~ (exists m, In m before /\ is_finished (snd m)) ->
    exists x, x_hello x = hello /\ x_shello x = shello /\ x_suite x = suite /\ x_items x = items /\ x_group x = group /\
      x_share x = share /\ x_before x = before /\
      forall rbuf rx c0 l rest, cn_new C rbuf wbuf rx tx = Ok c0 -> chunked rx ->
        followable C (length rbuf) x l -> stream rx = flight_wire C x l ++ rest ->
        fst (cn_open C (unsecure_provider ec rsa random secret bs) cfg tt c0) = Ok tt.
Proof.
  intros C ec rsa random secret bs cfg wbuf tx HC Hr Hs Hf H1 H2.
  destruct (C52_exactly C ec rsa random secret bs cfg wbuf tx HC Hr H1 H2) as (hello & Hsent & Hex). exists hello.
  split; [intros rbuf rx c0 Hn; exact (Hsent rbuf rx c0 Hn Hs)|].
  intros shello suite items group share dhe before Hd Hrq Hnf.
  destruct (C44_server_exists C (option_map fst (cfg_psk cfg)) secret hello shello suite items group share dhe before HC Hd Hnf)
    as (x & E1 & E2 & E3 & E4 & E5 & E6 & E7 & _ & _ & E8 & Hsec & Hfin).
  exists x. repeat (split; [assumption|]). intros rbuf rx c0 l rest Hn Hch Hfol Hst.
  apply (Hex rbuf rx c0 Hn Hch). split; [exact Hs|].
  assert (Hv : exists v, rfc_verify_data C (x_client x) (x_hellos x ++ raw (x_msgs x)) = Some v /\ length v = hash_len C).
  { unfold rfc_verify_data. destruct (expand_label_total C (x_client x) "finished" [] (hash_len C) HC) as (key & Hk & _); try (destruct (ok_sizes C HC); cbn; lia).
    rewrite Hk. eexists. split; [reflexivity|]. apply (ok_hmac_len C HC). }
  destruct Hv as (v & Hv & Hlv). exists x, rest, [fin_message v].
  split; [exact E1|]. split; [rewrite Hst; now apply C44_server_flight|]. split; [exact Hsec|]. split; [exact Hfin|]. split.
  - unfold answered. rewrite E7, Hrq. exists v. now split.
  - constructor; [|constructor]. unfold fin_message, vec. rewrite !app_length, !uint_length, Hlv. lia.
Qed.

(** ** A certificate without a key *)

(** Of any provider: when the server has finished and wants a certificate, the client has one, and
    its [signer] returns an error, [open] sends the Certificate, then a close_notify under the
    handshake key, and returns that error.  This is the one alert of [open] that is protected. *)
Theorem C34_signer : forall V C (p : provider V) cfg wbuf tx v v0, crypto_ok C -> length (p_random p) = 32 ->
  hello_size cfg (length (c_pub C (p_secret p))) (hash_len C) <= length wbuf ->
  Forall (eq WrOk) (tx_wr tx) -> Forall (eq FlOk) (tx_fl tx) -> told p cfg v v0 ->
  exists hello,
    (forall rbuf rx c0, cn_new C rbuf wbuf rx tx = Ok c0 ->
       exists evs, sent_log (snd (cn_open C p cfg v c0)) = tx_log tx ++ goes_out (SpecHandshake.hello_record hello) ++ evs) /\
    forall rbuf rx c0 x rest v1 ctx d e, cn_new C rbuf wbuf rx tx = Ok c0 -> chunked rx ->
      x_hello x = hello -> whole_flight C (length rbuf) (stream rx) x rest ->
      secrets_ok C (option_map fst (cfg_psk cfg)) (p_secret p) x -> finishes C x ->
      (p_has_verifier p = true -> accepts_all p (x_hellos x) (x_msgs x) v0 v1) ->
      answered x = Some ctx -> p_client_cert p = Some (CE_X509 d) -> p_signer p = Err e ->
      length (cert_message ctx [d]) + 22 <= length wbuf ->
      exists c, cn_open C p cfg v c0 = (Err e, c) /\
        sent_log c = tx_log tx ++ goes_out (SpecHandshake.hello_record hello) ++
          goes_out (rfc_record C (x_ckey x) (x_civ x) 0 ty_handshake (cert_message ctx [d]) 0) ++
          goes_out (rfc_record C (x_ckey x) (x_civ x) 1 ty_alert [x01; x00] 0).
Proof. intros V C p cfg wbuf tx v v0 HC Hr Hs H1 H2 Ht. exact (signer_fails C p cfg wbuf tx v v0 HC Hr Hs (conj H1 H2) Ht). Qed.

(** A client with an X.509 certificate but no key, or one that p256 does not read: when the server
    has finished and wants a certificate, [open] sends the Certificate, then a close_notify under
    the handshake key, and returns [InvalidPrivateKey]. *)
Theorem C52_no_key : forall C ec rsa random secret bs cfg wbuf tx, crypto_ok C -> length random = 32 ->
  hello_size cfg (length (c_pub C secret)) (hash_len C) <= length wbuf ->
  Forall (eq WrOk) (tx_wr tx) -> Forall (eq FlOk) (tx_fl tx) ->
  (forall der, last_key bs = Some der -> ec_from_sec1 ec der = None) ->
  exists hello,
    (forall rbuf rx c0, cn_new C rbuf wbuf rx tx = Ok c0 ->
       exists evs, sent_log (snd (cn_open C (unsecure_provider ec rsa random secret bs) cfg tt c0)) =
         tx_log tx ++ goes_out (SpecHandshake.hello_record hello) ++ evs) /\
    forall rbuf rx c0 x rest ctx d, cn_new C rbuf wbuf rx tx = Ok c0 -> chunked rx ->
      x_hello x = hello -> whole_flight C (length rbuf) (stream rx) x rest ->
      secrets_ok C (option_map fst (cfg_psk cfg)) secret x -> finishes C x ->
      answered x = Some ctx -> last_cert bs = Some (CE_X509 d) ->
      length (cert_message ctx [d]) + 22 <= length wbuf ->
      exists c, cn_open C (unsecure_provider ec rsa random secret bs) cfg tt c0 = (Err InvalidPrivateKey, c) /\
        sent_log c = tx_log tx ++ goes_out (SpecHandshake.hello_record hello) ++
          goes_out (rfc_record C (x_ckey x) (x_civ x) 0 ty_handshake (cert_message ctx [d]) 0) ++
          goes_out (rfc_record C (x_ckey x) (x_civ x) 1 ty_alert [x01; x00] 0).
Proof.
  intros C ec rsa random secret bs cfg wbuf tx HC Hr Hs H1 H2 Hk.
  destruct (C34_signer unit C (unsecure_provider ec rsa random secret bs) cfg wbuf tx tt tt HC) as (hello & Hsent & Hgo); auto.
  { now rewrite up_random_is. }
  { now rewrite up_secret_is. }
  { unfold told. now destruct (cfg_server_name cfg). }
  exists hello. split; [exact Hsent|]. intros rbuf rx c0 x rest ctx d Hn Hch E1 E2 E3 E4 E5 E6 E7.
  rewrite up_secret_is in Hgo. apply (Hgo rbuf rx c0 x rest tt ctx d InvalidPrivateKey); auto.
  - intros [=].
  - now rewrite up_cert_is.
  - rewrite up_signer_is. destruct (last_key bs) as [der|]; [|reflexivity]. now rewrite (Hk der).
Qed.

(** ** Panics *)

(** Signing with a P-256 key does not fail and DER signatures have at most 72 bytes, so they fit.  What is left of C50: a raw public
    key as certificate, and a record that is authentic and empty. *)
Theorem C52_panics : forall C ec rsa random secret bs cfg rbuf wbuf rx tx c0 x c,
  crypto_ok C -> (forall key m, exists sg, ec_sign ec key m = Some sg /\ length sg <= 72) -> (N.of_nat (length (stream rx)) < 2 ^ 64)%N ->
  cn_new C rbuf wbuf rx tx = Ok c0 -> cn_open C (unsecure_provider ec rsa random secret bs) cfg tt c0 = (Panic x, c) ->
  (x = PUnimplemented /\ exists key, last_cert bs = Some (CE_RawPublicKey key)) \/
  (x = PUnwrap /\ empty_record C (unsecure_provider ec rsa random secret bs) cfg (stream rx)).
Proof.
  intros C ec rsa random secret bs cfg rbuf wbuf rx tx c0 x c HC Hl Hw Hnew H.
  apply (C50_causes_partial _ _ _ _ _ rbuf wbuf rx tx c0 x c HC Hnew) in H.
  destruct H as [x Hx|key Hk|sign scheme m Hs Hm|He|Hn].
  - exfalso. destruct Hx as [(n & v & E)|[(tr & ce & v & E)|[(cv & v & E)|E]]]; try discriminate.
    rewrite up_signer_is in E. destruct (last_key bs) as [der|]; [|discriminate]. destruct (ec_from_sec1 ec der); discriminate.
  - left. rewrite up_cert_is in Hk. split; [reflexivity|eauto].
  - exfalso. rewrite up_signer_is in Hs. destruct (last_key bs) as [der|]; [|discriminate]. destruct (ec_from_sec1 ec der) as [key|]; [|discriminate].
    injection Hs as <- _. destruct (Hl key m) as (sg & Esg & Hle). specialize (Hm sg Esg). change (p_sig_cap _) with (if rsa then 512 else 104) in Hm. destruct rsa; lia.
  - right. auto.
  - lia.
Qed.

(** ** Concrete cases *)

Definition toy_ec : ec_lib :=
  mk_ec (fun der => match der with x30 :: k => Some k | _ => None end) (fun k m => Some (firstn 6 (t_hash (k ++ m)))).

(** The server of [full_start] asks for a certificate.  The first client gave a bad key, then a
    certificate, then a good key; the second one never gave a good key; the third one has nothing. *)
Definition good_calls : list provider_call := [WithPrivKey [x31]; WithCert (CE_X509 [xc1; xc2]); WithPrivKey [x30; x05]].
Definition bad_calls : list provider_call := [WithCert (CE_X509 [xc3]); WithPrivKey [x31; x05]; WithCert (CE_X509 [xc1; xc2])].
Definition toy_unsecure (bs : list provider_call) : provider unit := unsecure_provider toy_ec false toy_random toy_secret bs.

Definition good_open := Eval vm_compute in cn_open toy (toy_unsecure good_calls) small_config tt full_start.
Lemma good_open_is : cn_open toy (toy_unsecure good_calls) small_config tt full_start = good_open.
Proof. vm_compute. reflexivity. Qed.
Definition bad_open := Eval vm_compute in cn_open toy (toy_unsecure bad_calls) small_config tt full_start.
Lemma bad_open_is : cn_open toy (toy_unsecure bad_calls) small_config tt full_start = bad_open.
Proof. vm_compute. reflexivity. Qed.

Example good_succeeds : fst good_open = Ok tt /\ last_key good_calls = Some [x30; x05] /\ last_cert good_calls = Some (CE_X509 [xc1; xc2]).
Proof. repeat split. Qed.

(** The hypotheses of [C52_no_key] for the second one, and what comes out. *)
Example bad_hypotheses :
  (forall der, last_key bad_calls = Some der -> ec_from_sec1 toy_ec der = None) /\
  last_cert bad_calls = Some (CE_X509 [xc1; xc2]) /\ answered full_exchange = Some [x07; x08] /\
  whole_flight toy 400 (stream full_rx) full_exchange [x17; x03] /\
  secrets_ok toy None toy_secret full_exchange /\ finishes toy full_exchange /\
  length (cert_message [x07; x08] [[xc1; xc2]]) + 22 <= 300.
Proof.
  destruct full_hypotheses as (_ & Hstr & _ & _ & Hsec & Hfin & _).
  split; [intros der [= <-]; reflexivity|]. split; [reflexivity|]. split; [reflexivity|].
  split; [rewrite Hstr; apply C44_server_flight; [exact toy_ok|exact full_followable]|].
  split; [exact Hsec|]. split; [exact Hfin|]. apply Nat.leb_le. vm_compute. reflexivity.
Qed.

Example bad_fails : fst bad_open = Err InvalidPrivateKey /\
  exists evs, sent_log (snd bad_open) = evs ++ goes_out (rfc_record toy (x_ckey full_exchange) (x_civ full_exchange) 1 ty_alert [x01; x00] 0).
Proof. split; [reflexivity|]. exists (firstn 4 (sent_log (snd bad_open))). vm_compute. reflexivity. Qed.

(** The full provider of ToyServer.v is lenient: the same client without a verifier opens alike. *)
Definition full_unverified : provider unit :=
  mk_provider toy_random toy_secret false nv_set_hostname nv_verify_cert nv_verify_sig
    (p_client_cert full_provider) (p_signer full_provider) 16.
Example full_unverified_opens : cn_open toy full_unverified small_config tt full_start = (Ok tt, full_conn).
Proof.
  rewrite <- full_conn_opened. apply C52_same; try (intros [=]; fail).
  - intros _. repeat split; reflexivity.
  - repeat split; reflexivity.
Qed.

Print Assumptions C34_signer.
Print Assumptions C52_same.
Print Assumptions C52_no_verify.
Print Assumptions C52_defaults.
Print Assumptions C52_exactly.
Print Assumptions C52_anyone.
Print Assumptions C52_no_key.
Print Assumptions C52_panics.
