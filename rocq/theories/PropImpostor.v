(** * C69: who can complete a handshake with a client that has a verifier *)
From Coq Require Import String List NArith Arith Bool Lia ZArith.
From Coq.Strings Require Import Byte.
From Coq Require Import ZifyBool ZifyNat ZifyN.
From Verif Require Import Base ParseBuffer Buffer Codes Extensions Crypto KeySchedule Config Handshake Record WriteBuffer
  Transport RecordReader ReadBuffer Connection Api BaseProofs ParseProofs SpecWire SpecCodes SpecMessages WireProofs SpecKeys
  KeyProofs WriteProofs SpecRecord RecordProofs SpecRead ReadProofs SpecSend SendProofs SpecSession SpecHello HelloProofs PropHello HsWrite HsProofs ConnProofs
  SpecHandshake SpecOpen ServeProofs PropSend PropWrite PropRead PropKeys FlightProofs SpecComplete MessageProofs OpenProofs CompleteProofs
  PropComplete SpecServer ServerProofs PropServer SpecOffers PropOffers PropHandshake Toy ToyRun ToyServer.
Import ListNotations.
Local Open Scope list_scope.

Ltac Zify.zify_post_hook ::= Z.div_mod_to_equations.

(** Someone on the network who has nothing but a random number and a fresh secret for the key agreement: no pre-shared key, no
    certificate, no key to sign with.  They answer every client with a ServerHello, an empty EncryptedExtensions and a Finished, and do
    not look at what the client has to show. *)
Definition impostor (random secret : bytes) : server :=
  mk_server random secret (fun _ => None) (fun _ => [(ee_message [], M_EncryptedExtensions [])]) (fun ms => [P_messages ms 0])
    (fun _ _ _ _ => false).

(** Neither a certificate nor a signature. *)
Definition proves_nothing (ms : list (bytes * smsg)) : Prop :=
  Forall (fun m => match snd m with M_Certificate _ _ _ | M_CertificateVerify _ _ => False | _ => True end) ms.

Lemma proves_nothing_accepted {V} (p : provider V) : forall ms tr v, proves_nothing ms -> accepts_all p tr ms v v.
Proof. induction ms as [|[b m] ms IH]; intros tr v H; [constructor|]. inversion H; subst. cbn [snd] in *. apply aa_other; auto. Qed.

(** Take any client that is not configured with a pre-shared key, whatever its verifier accepts - it may reject every certificate
    and every signature - and whatever its certificate and configuration.  The impostor, who computes all it sends from the ClientHello alone, and
    shows neither a certificate nor a signature, completes the handshake with it: [open] returns Ok.  Then the application reads exactly
    what the impostor sends, and the impostor reads exactly what the application writes. *)
Theorem C69_refuted : forall V C (p : provider V) cfg wbuf tx v v0 random secret dhe lim,
  crypto_ok C -> 32 <= hash_len C -> In (code_point C) (map fst iana_cipher_suite) ->
  length (p_random p) = 32 -> length random = 32 -> c_pub C (p_secret p) <> [] ->
  config_ok cfg -> cfg_psk cfg = None -> hello_size cfg (length (c_pub C (p_secret p))) (hash_len C) <= length wbuf ->
  133 <= length wbuf <= lim + 5 -> hash_len C + 26 <= length wbuf -> (N.of_nat lim < 65519)%N ->
  tx_log tx = [] -> Forall (eq WrOk) (tx_wr tx) -> Forall (eq FlOk) (tx_fl tx) -> told p cfg v v0 ->
  c_dh C (p_secret p) (c_pub C secret) = Some dhe -> c_dh C secret (c_pub C (p_secret p)) = Some dhe ->
  let s := impostor random secret in
  exists hello x skey siv,
    (forall rbuf rx c0, cn_new C rbuf wbuf rx tx = Ok c0 ->
       exists evs, sent_log (snd (cn_open C p cfg v c0)) = goes_out (SpecHandshake.hello_record hello) ++ evs) /\
    server_exchange C s (SpecHandshake.hello_record hello) = Some (None, x) /\
    app_keys C None x "s ap traffic" = Some (skey, siv) /\
    proves_nothing (x_msgs x) /\
    forall rbuf rx c0 srv,
      length (c_pub C secret) + 58 <= length rbuf -> hash_len C + 27 <= length rbuf ->
      cn_new C rbuf wbuf rx tx = Ok c0 -> chunked rx ->
      stream rx = server_flight C s x ++ server_wire C skey siv 0 srv ->
      Forall (served C (length rbuf)) srv -> (N.of_nat (length srv) <= u64_max)%N ->
      exists c, cn_open C p cfg v c0 = (Ok tt, c) /\
        (forall ops, Forall (fun o => exists dst, o = OpRead dst /\ dst <> []) ops ->
           length (concat (data_of (map fst srv))) < length ops ->
           read_bytes (fst (run C ops c)) = concat (data_of (map fst srv))) /\
        (forall ops rs c', no_close ops -> (N.of_nat (length ops) <= u64_max)%N -> run C ops c = (rs, c') ->
           exists ds rest,
             server_reads C s lim (wire (sent_log c')) = Some (None, (ds, Pending [])) /\
             Forall (fun d => fst d = ty_data) ds /\ concat (map snd ds) ++ rest = accepted rs /\
             (forall rs1 r, rs = rs1 ++ [(OpFlush, r)] -> rest = [])).
Proof.
  intros V C p cfg wbuf tx v v0 random secret dhe lim HC H32 Hcp Hr Hsr Hpub Hcfg Hpsk Hsz HL Hw Hlim Hlog0 H1 H2 Htold Hd1 Hd2 s.
  destruct (session_with V C p cfg wbuf tx v v0 s dhe lim)
    as (hello & x & skey & siv & psk & Hsent & Hx & Hk & Hsh & Hps & Hb & Hf & Hvl & Haf & Hgo); auto.
  { unfold same_psk. now rewrite Hpsk. }
  rewrite Hpsk in *. cbn [option_map] in *. assert (psk = None) as -> by (destruct psk; [discriminate|reflexivity]).
  cbn [s impostor s_messages] in Hb.
  assert (Em : x_msgs x = [(ee_message [], M_EncryptedExtensions []); (fin_message (x_verify x), M_Finished (x_verify x))])
    by (unfold x_msgs; now rewrite Hb, Hf, Haf).
  assert (Hpn : proves_nothing (x_msgs x)) by (rewrite Em; repeat constructor).
  exists hello, x, skey, siv. split; [exact Hsent|]. split; [exact Hx|]. split; [exact Hk|]. split; [exact Hpn|].
  intros rbuf rx c0 srv Hr1 Hr2 Hnew Hch Hstr Hsrv Hn.
  assert (Hreq : requests (x_before x) = []) by (now rewrite Hb).
  assert (Han : answered x = None) by (unfold answered; now rewrite Hb).
  assert (Hvd : exists vd, rfc_verify_data C (x_client x) (x_hellos x ++ raw (x_msgs x)) = Some vd /\ length vd = hash_len C).
  { unfold rfc_verify_data. destruct (expand_label_total C (x_client x) "finished" [] (hash_len C) HC ltac:(lia)) as (k & -> & _).
    eexists. split; [reflexivity|]. apply (ok_hmac_len C HC). }
  destruct Hvd as (vd & Hvd & Hvdl).
  assert (Hsw : sends_well C s (length rbuf) x).
  { unfold sends_well. cbn [s impostor s_parts].
    split; [unfold parts_msgs; cbn [map part_msgs concat]; now rewrite app_nil_r|].
    split. { rewrite Hb. constructor; [|constructor]. cbn [fst snd]. split; [split; [apply ee_reads|]|split; [exact I|intros []]].
      - split; [constructor|]. unfold fits, items_wire. cbn. lia.
      - split; [intros t b []|cbn; lia]. }
    split; [rewrite Hreq; cbn; lia|]. split; [intros (m & [] & _)|]. split; [|split; [cbn; lia|]].
    - constructor; [|constructor]. cbn [part_fits]. rewrite Em. unfold raw. cbn [map fst concat]. rewrite app_nil_r, app_length. unfold fin_message.
      rewrite app_length, uint_length, vec_length, Hvl, (ok_tag_len C HC). change (length (ee_message [])) with 6. lia.
    - rewrite Hsh. unfold message, frame_body, ext_block, hello_items, items_wire, item_wire. cbn [app map concat fst snd s_secret s_random s impostor].
      rewrite ?app_length, ?vec_length, ?uint_length, ?app_length, ?vec_length, ?uint_length, ?app_length, ?vec_length, ?uint_length. cbn [length]. rewrite ?vec_length, ?app_length, ?uint_length, ?vec_length. cbn [length]. lia. }
  destruct (Hgo rbuf rx c0 v0 [fin_message vd] srv Hnew Hch Hstr Hsw) as (c & Ho & Hrd & Hwr & _); auto.
  - intros _. now apply proves_nothing_accepted.
  - rewrite Han. exact I.
  - intros F. now contradiction F.
  - rewrite Han. exists vd. auto.
  - constructor; [|constructor]. unfold fin_message. rewrite app_length, uint_length, vec_length, Hvdl. lia.
  - exists c. split; [exact Ho|]. split; [exact Hrd|]. unfold shown in Hwr. rewrite Hreq in Hwr. exact Hwr.
Qed.

(** What holds: if a pre-shared key is configured - and only then - the server's Finished proves something: it is computed with a key derived from the pre-shared key, and
    it covers all the messages of the handshake.  Missing: the same for a client that has a verifier and no pre-shared key. *)
Theorem C69_psk_partial : forall V C (p : provider V) cfg v rbuf wbuf rx tx c0 c key ids, crypto_ok C ->
  cfg_psk cfg = Some (key, ids) -> cn_new C rbuf wbuf rx tx = Ok c0 -> cn_open C p cfg v c0 = (Ok tt, c) ->
  exists x hs, flight_in C (stream rx) x (incoming c) /\ c_dh C (p_secret p) (x_share x) = Some (x_dhe x) /\
    rfc_handshake C (Some key) (x_dhe x) = Some hs /\ rfc_derive_secret C hs "s hs traffic" (x_hellos x) = Some (x_server x) /\
    In (x_finished x, M_Finished (x_verify x)) (x_msgs x) /\
    rfc_verify_data C (x_server x) (x_hellos x ++ raw (x_before x)) = Some (x_verify x).
Proof.
  intros V C p cfg v rbuf wbuf rx tx c0 c key ids HC Hk Hnew Ho.
  destruct (C26_finished V C p cfg v rbuf wbuf rx tx c0 c HC Hnew Ho) as (x & _ & _ & Hf & (Hd & hs & Hh & _ & Hs & _) & _ & Hfin).
  rewrite Hk in Hh. exists x, hs. repeat (split; [assumption|]). split.
  - unfold x_msgs. apply in_or_app. right. now left.
  - exact (Hfin (x_before x) (x_finished x) (x_verify x) (x_after x) eq_refl).
Qed.

(** ** Concrete case *)

(** A client whose verifier rejects everything, and the impostor: the application reads "pw?" and the impostor gets the answer. *)
Example C69_case : (forall tr ce v v', p_verify_cert no_one tr ce v <> (Ok tt, v')) /\ (forall cv v v', p_verify_sig no_one cv v <> (Ok tt, v')) /\
  p_has_verifier no_one = true /\
  exists rx c0 c, cn_new toy (zeros 400) (zeros 300) rx silent = Ok c0 /\ cn_open toy no_one small_config tt c0 = (Ok tt, c) /\
    read_bytes (fst (run toy [OpRead [x00; x00]; OpRead [x00]; OpRead [x00]; OpRead [x00]] c)) = [x70; x77; x3f] /\
    forall rs1 r c', run toy [OpWrite [x78; x79]; OpFlush] c = (rs1 ++ [(OpFlush, r)], c') ->
      exists ds, server_reads toy (impostor (repeat x09 32) srv_secret) 300 (wire (sent_log c')) = Some (None, (ds, Pending [])) /\
        concat (map snd ds) = accepted (rs1 ++ [(OpFlush, r)]).
Proof.
  split; [discriminate|]. split; [discriminate|]. split; [reflexivity|].
  assert (Hz : length (zeros 300) = 300 /\ length (zeros 400) = 400) by (unfold zeros; now rewrite !repeat_length). destruct Hz as [Z1 Z2].
  assert (Hcp : In (code_point toy) (map fst iana_cipher_suite)) by (vm_compute; auto).
  assert (Hsz : hello_size small_config (length (c_pub toy (p_secret no_one))) (hash_len toy) <= length (zeros 300)) by (rewrite Z1; vm_compute; lia).
  assert (H32 : 32 <= hash_len toy) by (vm_compute; lia).
  assert (Hp : c_pub toy (p_secret no_one) <> []) by (vm_compute; discriminate).
  assert (Hd : c_dh toy (p_secret no_one) (c_pub toy srv_secret) = Some srv_dhe /\ c_dh toy srv_secret (c_pub toy (p_secret no_one)) = Some srv_dhe)
    by (vm_compute; auto). destruct Hd as [D1 D2].
  assert (Hb : hash_len toy + 26 <= length (zeros 300)) by (rewrite Z1; vm_compute; lia).
  assert (Hl : 133 <= length (zeros 300) <= 300 + 5) by lia.
  assert (Hlim : (N.of_nat 300 < 65519)%N) by lia.
  destruct (C69_refuted unit toy no_one small_config (zeros 300) silent tt tt (repeat x09 32) srv_secret srv_dhe 300
    toy_ok H32 Hcp eq_refl eq_refl Hp small_config_ok eq_refl Hsz Hl Hb Hlim eq_refl (Forall_nil _) (Forall_nil _) eq_refl D1 D2)
    as (hello & x & skey & siv & _ & _ & _ & _ & Hgo).
  set (srv := [((ty_data, [x70; x77; x3f]), 0)] : list sent_record).
  set (w := server_flight toy (impostor (repeat x09 32) srv_secret) x ++ server_wire toy skey siv 0 srv) in *.
  assert (Hw : w <> []) by (unfold w, server_flight, flight_wire; discriminate).
  assert (Hnew : exists c0, cn_new toy (zeros 400) (zeros 300) [RxData w] silent = Ok c0).
  { unfold cn_new, wb_new. change TLS_RECORD_OVERHEAD with 128. rewrite (proj2 (Nat.ltb_lt _ _)) by lia. cbn [obind]. eauto. }
  destruct Hnew as (c0 & Hnew).
  destruct (Hgo (zeros 400) [RxData w] c0 srv) as (c & Ho & Hrd & Hwr); [rewrite Z2; vm_compute; lia|rewrite Z2; vm_compute; lia|exact Hnew| | | | |].
  { constructor; [|constructor]. eauto. }
  { cbn [stream map concat ev_bytes]. fold srv. apply app_nil_r. }
  { constructor; [|constructor]. split; [now left|]. rewrite Z2, (ok_tag_len toy toy_ok). cbn. lia. }
  { vm_compute. discriminate. }
  exists [RxData w], c0, c. split; [exact Hnew|]. split; [exact Ho|]. split.
  - apply Hrd; [|cbn; lia]. repeat (constructor; [eexists; split; [reflexivity|discriminate]|]). constructor.
  - intros rs1 r c' Hrun.
    destruct (Hwr [OpWrite [x78; x79]; OpFlush] (rs1 ++ [(OpFlush, r)]) c') as (ds & rest & G1 & _ & G3 & G4); [reflexivity|vm_compute; discriminate|exact Hrun|].
    exists ds. split; [exact G1|]. rewrite <- G3, (G4 rs1 r eq_refl). now rewrite app_nil_r.
Qed.

Print Assumptions C69_refuted.
Print Assumptions C69_psk_partial.
