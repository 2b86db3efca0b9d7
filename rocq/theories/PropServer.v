(** * C57: the client and a server that follows the RFC understand each other *)
From Coq Require Import String List NArith Arith Bool Lia ZArith.
From Coq.Strings Require Import Byte.
From Coq Require Import ZifyBool ZifyNat ZifyN.
From Verif Require Import Base ParseBuffer Buffer Codes Extensions Crypto KeySchedule Config Handshake Record WriteBuffer
  Transport RecordReader ReadBuffer Connection Api BaseProofs ParseProofs SpecWire SpecCodes SpecMessages WireProofs SpecKeys
  KeyProofs WriteProofs SpecRecord RecordProofs SpecRead ReadProofs SpecSend SendProofs SpecSession SpecHello HelloProofs PropHello HsWrite HsProofs ConnProofs
  SpecHandshake SpecOpen ServeProofs PropSend PropWrite PropRead PropKeys FlightProofs SpecComplete MessageProofs OpenProofs CompleteProofs
  PropComplete SpecServer ServerProofs Toy ToyRun ToyServer.
Import ListNotations.
Local Open Scope list_scope.

(** The ClientHello of a client, with what a server reads in it. *)
Lemma client_hello {V} C (p : provider V) cfg wbuf tx v v0 : crypto_ok C -> 32 <= hash_len C -> length (p_random p) = 32 ->
  c_pub C (p_secret p) <> [] -> config_ok cfg ->
  hello_size cfg (length (c_pub C (p_secret p))) (hash_len C) <= length wbuf -> 133 <= length wbuf -> (N.of_nat (length wbuf) <= 65540)%N ->
  tx_ok tx -> told p cfg v v0 ->
  exists hello binders,
    length hello + 5 <= length wbuf /\
    g_whole g_record (SpecHandshake.hello_record hello) =
      Some (mk_hello 0x0303 (p_random p) [] [code_point C] [x00] (offered cfg (c_pub C (p_secret p)) binders)) /\
    (forall k ids, cfg_psk cfg = Some (k, ids) -> exists bk b,
      rfc_binder_key C (Some k) = Some bk /\ binders = repeat b (length ids) /\
      rfc_verify_data C bk (truncated hello binders) = Some b) /\
    forall hello', (forall rbuf rx c0, cn_new C rbuf wbuf rx tx = Ok c0 ->
       exists evs, sent_log (snd (cn_open C p cfg v c0)) = tx_log tx ++ goes_out (SpecHandshake.hello_record hello') ++ evs) -> hello' = hello.
Proof.
  intros HC H32 Hr Hpub Hcfg Hsz H133 Hmax Htx Htold.
  destruct (hello_fwd C p cfg wbuf tx HC Hr Hsz Htx) as (hello & k1 & Hk1 & Hfwd).
  set (ch := mk_ch cfg (p_random p) (p_secret p)) in *.
  assert (Hnew : exists c0, cn_new C [] wbuf [] tx = Ok c0).
  { unfold cn_new, wb_new. change TLS_RECORD_OVERHEAD with 128. rewrite (proj2 (Nat.ltb_lt _ _)) by lia. cbn [obind]. eauto. }
  destruct Hnew as (c0 & Hnew). destruct (cn_new_idle C [] wbuf [] tx c0 Hnew) as (_ & _ & _ & Htx0 & _ & Hrd0 & Hks0 & _).
  destruct (C08_key_schedule C (option_map fst (cfg_psk cfg)) [] [] [] HC) as (k1' & Hk1' & Hbk & _ & Htr1 & _). assert (k1' = k1) by congruence. subst k1'.
  destruct (Hfwd [] [] c0 (hs_new v0) Hnew) as (c1 & Hp & Hsd & _).
  pose proof Hsd as (Hpl & Hl & _ & _ & _ & _ & _ & _ & Hid1 & _). cbn [payload_of] in Hpl.
  assert (Hm : hello_msg C ch (ks_w k1) [] hello).
  { revert Hpl. unfold tr_of. cbn [cn_with_keysched cn_wh cn_rd wh_with_ks wh_ks rd_with_ks rd_ks]. rewrite Htr1. auto. }
  destruct (hello_read C ch (ks_w k1) hello HC H32 Hr Hpub Hcfg Hm Hbk) as (Hlen & binders & Hg & Hb); [cbn [ch_config ch_secret ch]; lia|].
  exists hello, binders. cbn [ch_config ch_secret ch] in Hlen. split; [lia|]. split; [exact Hg|]. split; [exact Hb|].
  intros hello' Hs. destruct (Hs [] [] c0 Hnew) as (evs & He).
  assert (Hlog : log_of (cn_wh c1) = tx_log tx ++ goes_out (SpecHandshake.hello_record hello)).
  { rewrite Hl. unfold rec_wire, log_of. cbn [cr_header rh_is_encrypted plain_type cn_with_keysched cn_wh wh_with_ks wh_tx]. rewrite Htx0. reflexivity. }
  assert (Hhost : host_step p cfg v = (Ok tt, v0)).
  { unfold host_step, told in *. destruct (cfg_server_name cfg), (p_has_verifier p); congruence. }
  revert He. unfold cn_open. fold (host_step p cfg v). rewrite Hhost. unfold bind at 1, lift at 1.
  change (8 + rx_size (rd_rx (cn_rd c0))) with (S (7 + rx_size (rd_rx (cn_rd c0)))).
  rewrite TermProofs.open_loop_round by discriminate. unfold bind at 1. rewrite Hp.
  destruct (open_loop C p cfg _ _ _) as [o [c2 h2]] eqn:El.
  destruct (open_loop_out C p cfg (length wbuf) HC _ _ _ _ _ _ Hid1 El) as (evs' & He' & _). cbn [fst] in He'.
  intros He. assert (He2 : log_of (cn_wh c2) = tx_log tx ++ goes_out (SpecHandshake.hello_record hello') ++ evs).
  { rewrite <- He. destruct o; reflexivity. }
  rewrite He', Hlog, <- app_assoc in He2. apply app_inv_head in He2. symmetry. exact (goes_out_inj _ _ _ _ He2).
Qed.

Lemma goes_out_wire b : wire (goes_out b) = b.
Proof. unfold wire, goes_out. cbn [map concat ev_bytes]. now rewrite firstn_all, !app_nil_r. Qed.

Lemma first_record_hello hello w : (N.of_nat (length hello) < 65536)%N ->
  first_record (SpecHandshake.hello_record hello ++ w) = (SpecHandshake.hello_record hello, w).
Proof.
  intros H. unfold first_record.
  assert (E : be_val (firstn 2 (skipn 3 (SpecHandshake.hello_record hello ++ w))) = N.of_nat (length hello)).
  { unfold SpecHandshake.hello_record. rewrite (vec_eq 2), <- !app_assoc. rewrite app_assoc, skipn_app_exact by (now rewrite app_length, !uint_length).
    rewrite firstn_app_exact by apply uint_length. now apply be_val_uint_small. }
  rewrite E, Nat2N.id.
  assert (Hl : length (SpecHandshake.hello_record hello) = 5 + length hello).
  { unfold SpecHandshake.hello_record. rewrite !app_length, vec_length, !uint_length. reflexivity. }
  now rewrite firstn_app_exact, skipn_app_exact by exact Hl.
Qed.

(** ** C57 *)

(** C57 below, with what it says about the server's certificate request asked only of a server that sends one, and with the
    parts of the exchange. *)
Lemma session_with : forall V C (p : provider V) cfg wbuf tx v v0 s dhe lim,
  crypto_ok C -> 32 <= hash_len C -> In (code_point C) (map fst iana_cipher_suite) ->
  length (p_random p) = 32 -> length (s_random s) = 32 -> c_pub C (p_secret p) <> [] ->
  config_ok cfg -> hello_size cfg (length (c_pub C (p_secret p))) (hash_len C) <= length wbuf ->
  133 <= length wbuf <= lim + 5 -> (N.of_nat lim < 65519)%N ->
  tx_log tx = [] -> Forall (eq WrOk) (tx_wr tx) -> Forall (eq FlOk) (tx_fl tx) -> told p cfg v v0 ->
  c_dh C (p_secret p) (c_pub C (s_secret s)) = Some dhe -> c_dh C (s_secret s) (c_pub C (p_secret p)) = Some dhe ->
  same_psk cfg s ->
  exists hello x skey siv psk,
    (forall rbuf rx c0, cn_new C rbuf wbuf rx tx = Ok c0 ->
       exists evs, sent_log (snd (cn_open C p cfg v c0)) = goes_out (SpecHandshake.hello_record hello) ++ evs) /\
    server_exchange C s (SpecHandshake.hello_record hello) = Some (option_map fst (cfg_psk cfg), x) /\
    app_keys C (option_map fst (cfg_psk cfg)) x "s ap traffic" = Some (skey, siv) /\
    x_shello x = message (F_ServerHello 0x0303 (s_random s) [] (code_point C) 0) (hello_items C s psk) /\
    option_map snd psk = option_map fst (cfg_psk cfg) /\
    x_before x = s_messages s (x_hellos x) /\ x_finished x = fin_message (x_verify x) /\ length (x_verify x) = hash_len C /\ x_after x = [] /\
    forall rbuf rx c0 v1 ms srv,
      cn_new C rbuf wbuf rx tx = Ok c0 -> chunked rx ->
      stream rx = server_flight C s x ++ server_wire C skey siv 0 srv ->
      sends_well C s (length rbuf) x ->
      (p_has_verifier p = true -> accepts_all p (x_hellos x) (x_msgs x) v0 v1) ->
      signature_fits C p (x_hellos x ++ raw (x_msgs x)) (answered x) -> (requests (x_before x) <> [] -> signs_for p s) ->
      answer C p (x_client x) (x_hellos x ++ raw (x_msgs x)) (answered x) ms ->
      Forall (fun m => length m + 22 <= length wbuf) ms ->
      Forall (served C (length rbuf)) srv -> (N.of_nat (length srv) <= u64_max)%N ->
      exists c, cn_open C p cfg v c0 = (Ok tt, c) /\
        (forall ops, Forall (fun o => exists dst, o = OpRead dst /\ dst <> []) ops ->
           length (concat (data_of (map fst srv))) < length ops ->
           read_bytes (fst (run C ops c)) = concat (data_of (map fst srv))) /\
        (forall ops rs c', no_close ops -> (N.of_nat (length ops) <= u64_max)%N -> run C ops c = (rs, c') ->
           exists ds rest,
             server_reads C s lim (wire (sent_log c')) = Some (shown p x, (ds, Pending [])) /\
             Forall (fun d => fst d = ty_data) ds /\ concat (map snd ds) ++ rest = accepted rs /\
             (forall rs1 r, rs = rs1 ++ [(OpFlush, r)] -> rest = [])) /\
        (forall ops rs c1 r c', no_close ops -> (N.of_nat (length ops) + 2 <= u64_max)%N ->
           run C ops c = (rs, c1) -> not_closed rs -> step C OpClose c1 = (r, c') ->
           r = Ok VUnit /\ exists ds,
             server_reads C s lim (wire (sent_log c')) = Some (shown p x, (ds ++ [(ty_alert, [x01; x00])], Pending [])) /\
             Forall (fun d => fst d = ty_data) ds /\ concat (map snd ds) = accepted rs).
Proof.
  intros V C p cfg wbuf tx v v0 s dhe lim HC H32 Hcp Hr Hsr Hpub Hcfg Hsz HL Hlim Hlog0 H1 H2 Htold Hd1 Hd2 Hpsk.
  destruct (client_hello C p cfg wbuf tx v v0 HC H32 Hr Hpub Hcfg Hsz) as (hello & binders & Hhl & Hg & Hb & Huniq); auto; [lia|lia|split; assumption|].
  destruct (handshake_succeeds C p cfg wbuf tx v v0 HC Hr Hsz (conj H1 H2) Htold) as (hello' & Hsent & Hgo).
  assert (hello' = hello) by (apply Huniq; exact Hsent). subst hello'. clear Huniq.
  destruct (server_agrees C s cfg (c_pub C (p_secret p)) binders (p_random p) hello (p_secret p) dhe HC Hg Hpsk Hb Hd2 Hd1)
    as (x & psk & Hx & Hps & X1 & X2 & X3 & X4 & X5 & X6 & X7 & X8 & X9 & X10 & Hsec & Hvd).
  destruct (app_keys_exist C (option_map fst (cfg_psk cfg)) x "s ap traffic" HC (or_intror eq_refl)) as (skey & siv & Hsk).
  destruct (app_keys_exist C (option_map fst (cfg_psk cfg)) x "c ap traffic" HC (or_introl eq_refl)) as (ckey & civ & Hck).
  exists hello, x, skey, siv, psk. split.
  { intros rbuf rx c0 Hnew. destruct (Hsent rbuf rx c0 Hnew) as (evs & ->). rewrite Hlog0. now exists evs. }
  split; [exact Hx|]. split; [exact Hsk|]. split; [exact X2|]. split; [exact Hps|]. split; [exact X7|]. split; [exact X8|]. split; [exact X9|]. split; [exact X10|].
  intros rbuf rx c0 v1 ms srv Hnew Hch Hstr (W1 & W2 & W3 & W4 & W5 & W6 & W7) Hacc Hsf Hsgn Hans Hlens Hsrv Hn.
  destruct (shello_understood C s psk HC Hsr Hcp) as (U1 & U2 & U3).
  assert (Hfol : followable C (length rbuf) x (s_parts s (x_msgs x))).
  { split; [rewrite X2, X3, X4; exact U1|]. split; [rewrite X4, X5, X6; exact U2|]. split; [rewrite X2; exact U3|]. split; [exact W7|].
    split; [exact W1|]. split; [|auto]. unfold x_msgs. rewrite X10. apply Forall_app. split.
    - eapply Forall_impl; [|exact W2]. intros m (A & B & _). auto.
    - constructor; [|constructor]. cbn [fst snd]. rewrite X8. split; [now apply fin_understood|exact I]. }
  assert (Hfin : finishes C x).
  { split; [rewrite X10; intros (m & [] & _)|]. intros pre b w post E. unfold x_msgs in E. rewrite X10 in E.
    assert (Epost : pre = x_before x /\ w = x_verify x).
    { destruct post as [|z post _] using rev_ind.
      - apply app_inj_tail in E as [E1 E2]. injection E2 as _ E2. auto.
      - exfalso. rewrite app_comm_cons, app_assoc in E. apply app_inj_tail in E as [E _].
        rewrite Forall_forall in W2. destruct (W2 (b, M_Finished w)) as (_ & _ & F); [|now apply F].
        rewrite E. apply in_or_app. right. now left. }
    destruct Epost as [-> ->]. exact Hvd. }
  destruct (Hgo rbuf rx c0 x (server_wire C skey siv 0 srv) v1 ms Hnew Hch X1) as (c & Ho & Hlogc & Hin & Hst & Hrm & Htx & Hkw & Hkr); auto.
  { rewrite Hstr. now apply followable_whole. }
  apply (app_keys_session C _ x _ _ _ X10) in Hsk. apply (app_keys_session C _ x _ _ _ X10) in Hkw. rewrite Hck in Hkw. injection Hkw as Ek Ei.
  destruct (session_keys_unique _ _ _ _ _ _ _ _ Hkr Hsk) as [Fk Fi].
  assert (He : established C (length wbuf) c) by (exists V, p, cfg, v, rbuf, wbuf, rx, tx, c0; auto).
  assert (Hread : forall w, server_reads C s lim (wire (sent_log c) ++ w) = Some (shown p x, peer_read C lim ckey civ 0 w)).
  { intros w. rewrite Hlogc, Hlog0. cbn [app]. rewrite wire_app, goes_out_wire, <- app_assoc. unfold server_reads. rewrite first_record_hello by lia.
    rewrite Hx. cbn [opt_bind].
    destruct (answer_checked C p s lim x ms w HC X10 W3 (requests_fit C x W2) Hans Hsgn) as [-> Hok]; [|exact Hlim|].
    { eapply Forall_impl; [|exact Hlens]. cbn beta. intros m Hm. lia. }
    cbn [opt_bind fst snd]. rewrite Hok. cbn [opt_bind]. rewrite Hck. reflexivity. }
  exists c. split; [exact Ho|]. split; [|split].
  - intros ops Hops Hl. apply (C14_complete C (length wbuf) c srv ops HC He Hst); auto; [now rewrite Fk, Fi|now rewrite Hrm].
  - intros ops rs c' Hnc Hcnt Hrun.
    destruct (C13_peer_gets_what_was_accepted C (length wbuf) lim c ops rs c' HC He ltac:(lia) Hlim Htx Hnc Hcnt Hrun) as (new & ds & rest & G1 & G2 & G3 & G4 & _ & G6 & _).
    exists ds, rest. split; [|auto]. rewrite G1, wire_app, Hread. rewrite <- Ek, <- Ei in G2. now rewrite G2.
  - intros ops rs c1 r c' Hnc Hcnt Hrun Hncl Hstep.
    destruct (C23_close_partial C (length wbuf) lim c ops rs c1 r c' HC He ltac:(lia) ltac:(lia) Hlim Hnc Hcnt Htx Hrun Hncl Hstep) as (-> & new & ds & G1 & G2 & G3 & G4).
    split; [reflexivity|]. exists ds. split; [|auto]. rewrite G1, wire_app, Hread, wire_app.
    change (wire [TxFlush]) with (@nil byte). rewrite app_nil_r. rewrite <- Ek, <- Ei in G2. now rewrite G2.
Qed.

(** Take any client (configuration, random bytes, secret, verifier, certificate, sizes of the
    buffers) and any server as in SpecServer.v: it reads the ClientHello with the grammar of the
    RFC, picks one of the pre-shared keys offered and checks its binder, does the key agreement and
    the key schedule from its side, answers with messages of its choice, reads the client's answer,
    checks signature and Finished, and opens the records that follow.  Suppose the two fit: the same
    suite, key agreement gives both the same secret, if the client offers a pre-shared key the server
    knows it; the client's verifier accepts the server's certificate, and the server the client's;
    the buffers are big enough.  Then the server accepts the ClientHello; the client, given the
    server's flight, however it is cut into pieces, completes [open]; all application data the
    server sends comes out of [read]; and from all the bytes the client sent since the beginning
    the server gets the client's certificate if it asked for one, and then exactly what the
    application wrote, in order: all of it after a [flush], and after [close] all of it followed by
    the closure alert. *)
Theorem C57_session : forall V C (p : provider V) cfg wbuf tx v v0 s dhe lim,
  crypto_ok C -> 32 <= hash_len C -> In (code_point C) (map fst iana_cipher_suite) ->
  length (p_random p) = 32 -> length (s_random s) = 32 -> c_pub C (p_secret p) <> [] ->
  config_ok cfg -> hello_size cfg (length (c_pub C (p_secret p))) (hash_len C) <= length wbuf ->
  133 <= length wbuf <= lim + 5 -> (N.of_nat lim < 65519)%N ->
  tx_log tx = [] -> Forall (eq WrOk) (tx_wr tx) -> Forall (eq FlOk) (tx_fl tx) -> told p cfg v v0 ->
  c_dh C (p_secret p) (c_pub C (s_secret s)) = Some dhe -> c_dh C (s_secret s) (c_pub C (p_secret p)) = Some dhe ->
  same_psk cfg s -> signs_for p s ->
  exists hello x skey siv,
    (forall rbuf rx c0, cn_new C rbuf wbuf rx tx = Ok c0 ->
       exists evs, sent_log (snd (cn_open C p cfg v c0)) = goes_out (SpecHandshake.hello_record hello) ++ evs) /\
    server_exchange C s (SpecHandshake.hello_record hello) = Some (option_map fst (cfg_psk cfg), x) /\
    app_keys C (option_map fst (cfg_psk cfg)) x "s ap traffic" = Some (skey, siv) /\
    forall rbuf rx c0 v1 ms srv,
      cn_new C rbuf wbuf rx tx = Ok c0 -> chunked rx ->
      stream rx = server_flight C s x ++ server_wire C skey siv 0 srv ->
      sends_well C s (length rbuf) x ->
      (p_has_verifier p = true -> accepts_all p (x_hellos x) (x_msgs x) v0 v1) ->
      signer_fits C p ->
      answer C p (x_client x) (x_hellos x ++ raw (x_msgs x)) (answered x) ms ->
      Forall (fun m => length m + 22 <= length wbuf) ms ->
      Forall (served C (length rbuf)) srv -> (N.of_nat (length srv) <= u64_max)%N ->
      exists c, cn_open C p cfg v c0 = (Ok tt, c) /\
        (forall ops, Forall (fun o => exists dst, o = OpRead dst /\ dst <> []) ops ->
           length (concat (data_of (map fst srv))) < length ops ->
           read_bytes (fst (run C ops c)) = concat (data_of (map fst srv))) /\
        (forall ops rs c', no_close ops -> (N.of_nat (length ops) <= u64_max)%N -> run C ops c = (rs, c') ->
           exists ds rest,
             server_reads C s lim (wire (sent_log c')) = Some (shown p x, (ds, Pending [])) /\
             Forall (fun d => fst d = ty_data) ds /\ concat (map snd ds) ++ rest = accepted rs /\
             (forall rs1 r, rs = rs1 ++ [(OpFlush, r)] -> rest = [])) /\
        (forall ops rs c1 r c', no_close ops -> (N.of_nat (length ops) + 2 <= u64_max)%N ->
           run C ops c = (rs, c1) -> not_closed rs -> step C OpClose c1 = (r, c') ->
           r = Ok VUnit /\ exists ds,
             server_reads C s lim (wire (sent_log c')) = Some (shown p x, (ds ++ [(ty_alert, [x01; x00])], Pending [])) /\
             Forall (fun d => fst d = ty_data) ds /\ concat (map snd ds) = accepted rs).
Proof.
  intros V C p cfg wbuf tx v v0 s dhe lim HC H32 Hcp Hr Hsr Hpub Hcfg Hsz HL Hlim Hlog0 H1 H2 Htold Hd1 Hd2 Hpsk Hsgn.
  destruct (session_with V C p cfg wbuf tx v v0 s dhe lim) as (hello & x & skey & siv & psk & Hsent & Hx & Hk & _ & _ & _ & _ & _ & _ & Hgo); auto.
  exists hello, x, skey, siv. split; [exact Hsent|]. split; [exact Hx|]. split; [exact Hk|].
  intros rbuf rx c0 v1 ms srv Hnew Hch Hstr Hw Hacc Hsf Hans Hlens Hsrv Hn.
  apply (Hgo rbuf rx c0 v1 ms srv); auto. now apply signer_signature_fits.
Qed.
Print Assumptions C57_session.

(** ** Concrete cases *)

(** A server that asks for a certificate, meets the client of ToyServer.v. *)
Definition full_server : server :=
  mk_server (repeat x09 32) srv_secret (fun _ => None) (fun _ => full_before)
    (fun ms => [P_ccs; P_messages (firstn 2 ms) 0; P_messages (skipn 2 ms) 0])
    (fun _ _ m sg => bytes_eqb sg (firstn 6 (t_hash m))).

Lemma full_server_exchange : server_exchange toy full_server (SpecHandshake.hello_record plain_hello) = Some (None, full_exchange).
Proof. vm_compute. reflexivity. Qed.

Lemma small_config_ok : config_ok small_config.
Proof.
  unfold config_ok, small_config. cbn [cfg_schemes cfg_groups cfg_server_name cfg_alpn cfg_psk].
  split; [discriminate|]. split; [discriminate|]. split; [intros n E; inversion E; discriminate|]. split; intros; discriminate.
Qed.

Example C57_premises :
  c_dh toy (p_secret full_provider) (c_pub toy (s_secret full_server)) = Some srv_dhe /\
  c_dh toy (s_secret full_server) (c_pub toy (p_secret full_provider)) = Some srv_dhe /\
  same_psk small_config full_server /\ signs_for full_provider full_server /\
  sends_well toy full_server 400 full_exchange /\
  server_flight toy full_server full_exchange = flight_wire toy full_exchange full_parts /\
  shown full_provider full_exchange = Some [[xc1; xc2]].
Proof.
  split; [vm_compute; reflexivity|]. split; [vm_compute; reflexivity|]. split; [exact I|]. split.
  { intros e E. injection E as <-. exists [xc1; xc2]. split; [reflexivity|]. split; [discriminate|].
    intros sign scheme m sg E1 E2. injection E1 as <- <-. injection E2 as <-. apply bytes_eqb_refl. }
  split; [|split; reflexivity].
  destruct full_followable as (_ & _ & _ & F4 & F5 & F6 & F7 & F8 & F9).
  split; [exact F5|]. split.
  { unfold x_msgs in F6. apply Forall_app in F6 as [F6 _]. apply Forall_forall. intros m Hm. rewrite Forall_forall in F6. destruct (F6 m Hm) as [A B].
    split; [exact A|]. split; [exact B|]. cbn in Hm. destruct Hm as [<-|[<-|[<-|[<-|[]]]]]; intros []. }
  split; [cbn; lia|]. split; [exact F7|]. split; [exact F8|]. split; [exact F9|exact F4].
Qed.

(** Two identities with one key: the server knows the second, finds the binder right, and uses it. *)
Definition psk_config : tls_config :=
  mk_config None None (Some ([x0a; x0b], [[x31]; [x32; x33]])) [SS_EcdsaSecp256r1Sha256] [NG_Secp256r1] None.
Definition psk_hello : bytes := Eval vm_compute in hello_of plain_provider psk_config tt.
Definition psk_server (keys : bytes -> option bytes) : server :=
  mk_server (repeat x09 32) srv_secret keys (fun _ => [(empty_ee, M_EncryptedExtensions [])]) (fun ms => [P_messages ms 3]) (fun _ _ _ _ => false).
Definition second_key (i : bytes) : option bytes := if bytes_eqb i [x32; x33] then Some [x0a; x0b] else None.
Definition wrong_key (i : bytes) : option bytes := if bytes_eqb i [x32; x33] then Some [x0a; x0c] else None.
Definition result (o : option (option bytes * exchange)) : option (option bytes * list ext_item) :=
  match o with Some (k, x) => Some (k, x_items x) | None => None end.

Example C57_psk :
  config_ok psk_config /\ same_psk psk_config (psk_server second_key) /\
  result (server_exchange toy (psk_server second_key) (SpecHandshake.hello_record psk_hello)) =
    Some (Some [x0a; x0b], hello_items toy (psk_server second_key) (Some (1%N, [x0a; x0b]))) /\
  server_exchange toy (psk_server wrong_key) (SpecHandshake.hello_record psk_hello) = None.
Proof.
  split.
  { unfold config_ok, psk_config. cbn [cfg_schemes cfg_groups cfg_server_name cfg_alpn cfg_psk].
    split; [discriminate|]. split; [discriminate|]. split; [discriminate|]. split; [discriminate|].
    intros k ids E. injection E as <- <-. split; [discriminate|]. intros i [<-|[<-|[]]]; discriminate. }
  split.
  { split; [exists [x32; x33]; split; [right; now left|reflexivity]|].
    intros i k' [<-|[<-|[]]] E; [discriminate E|]. injection E as <-. reflexivity. }
  split; vm_compute; reflexivity.
Qed.

(** ** A server that does not know the pre-shared key

    RFC 8446 section 4.2.11: a server that recognises none of the identities goes on without a
    pre-shared key; then the early secret is that of no key.  The client of this code keeps its
    key, whether the ServerHello selects it or not: with such a server the handshake fails. *)
Definition deaf_server : server := psk_server (fun _ => None).
Definition declined : exchange := Eval vm_compute in
  match server_exchange toy deaf_server (SpecHandshake.hello_record psk_hello) with Some (_, x) => x | None => full_exchange end.
Definition declined_rx : list rx_event := Eval vm_compute in [RxData (server_flight toy deaf_server declined)].
Definition declined_conn : conn := Eval vm_compute in the_conn (open_with plain_provider psk_config tt 400 300 declined_rx silent).
Lemma declined_fails :
  psk_hello = hello_of plain_provider psk_config tt /\
  server_exchange toy deaf_server (SpecHandshake.hello_record psk_hello) = Some (None, declined) /\
  stream declined_rx = server_flight toy deaf_server declined /\
  open_with plain_provider psk_config tt 400 300 declined_rx silent = Ok (Err CryptoError, declined_conn).
Proof. split; [|split; [|split]]; vm_compute; reflexivity. Qed.

Lemma declined_sent : sends_well toy deaf_server 400 declined.
Proof.
  unfold sends_well. change (s_parts deaf_server (x_msgs declined)) with [P_messages (x_msgs declined) 3].
  split; [reflexivity|]. split.
  { constructor; [|constructor]. cbn [fst snd]. split; [|split; [exact I|intros []]]. split.
    - exists [x00; x00; x02], [x00; x00]. split; [reflexivity|]. split; [|reflexivity]. split; [|reflexivity]. split; [constructor|reflexivity].
    - split; [intros t b []|cbn; lia]. }
  split; [cbn; lia|]. split; [intros (m & [] & _)|]. split; [|split; [reflexivity|vm_compute; lia]].
  constructor; [|constructor]. split; vm_compute; [lia|reflexivity].
Qed.

Theorem C57_declined_psk_refuted :
  ~ (forall cfg s x c0 rx, config_ok cfg -> chunked rx ->
       server_exchange toy s (SpecHandshake.hello_record (hello_of plain_provider cfg tt)) = Some (None, x) ->
       sends_well toy s 400 x -> stream rx = server_flight toy s x ->
       cn_new toy (zeros 400) (zeros 300) rx silent = Ok c0 ->
       exists c, cn_open toy plain_provider cfg tt c0 = (Ok tt, c)).
Proof.
  intros H. destruct declined_fails as (F0 & F1 & F2 & F3).
  destruct (cn_new toy (zeros 400) (zeros 300) declined_rx silent) as [c0|e|y| |] eqn:E; try discriminate E.
  assert (Hch : chunked declined_rx) by (constructor; [eexists; split; [reflexivity|discriminate]|constructor]).
  rewrite F0 in F1. destruct (H psk_config deaf_server declined c0 declined_rx (proj1 C57_psk) Hch F1 declined_sent F2 E) as (c & Hc).
  unfold open_with in F3. rewrite E in F3. cbn [obind] in F3. rewrite Hc in F3. discriminate F3.
Qed.
Print Assumptions C57_declined_psk_refuted.
