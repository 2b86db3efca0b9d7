(** * C59: a client that accepts a server's Finished has the same view of the handshake as that server *)
From Coq Require Import String List NArith Arith Bool Lia ZArith.
From Coq.Strings Require Import Byte.
From Coq Require Import ZifyBool ZifyNat ZifyN.
From Verif Require Import Base ParseBuffer Buffer Codes Extensions Crypto KeySchedule Config Handshake Record WriteBuffer
  Transport RecordReader ReadBuffer Connection Api BaseProofs ParseProofs SpecWire SpecCodes SpecMessages WireProofs SpecKeys
  KeyProofs WriteProofs SpecRecord RecordProofs SpecRead ReadProofs SpecSend SendProofs SpecSession SpecHello HelloProofs PropHello HsWrite HsProofs ConnProofs
  SpecHandshake SpecOpen ServeProofs PropSend PropWrite PropRead PropKeys FlightProofs SpecComplete MessageProofs OpenProofs CompleteProofs
  PropComplete SpecServer ServerProofs PropServer ReceiverProofs ListenProofs SpecAgree AgreeProofs Toy ToyRun ToyServer.
Import ListNotations.
Local Open Scope list_scope.

Lemma opt_dec (a b : option bytes) : {a = b} + {a <> b}.
Proof. destruct a as [a|], b as [b|]; try (right; discriminate); [|now left]. destruct (list_eq_dec Byte.byte_eq_dec a b) as [->|N]; [now left|right; congruence]. Qed.

(** The transport is in the hands of an adversary: what arrives at the client ([rx]) and what arrives at the server ([record]) is arbitrary.
    Suppose [open] succeeds, and the Finished that the client accepted is the Finished of some server [s] (in its exchange [y], computed from
    [record]).  Then the server received exactly the ClientHello the client sent, with all its offers; the client received exactly the
    messages the server sent; both have the same pre-shared key, the same secrets and the same keys.  Or else the values of the two
    exchanges exhibit a coincidence that breaks the hash, the HMAC or the key derivation. *)
Theorem C59_agreement : forall V C (p : provider V) cfg rbuf wbuf rx tx c0 v c,
  crypto_ok C -> 32 <= hash_len C -> length (p_random p) = 32 -> c_pub C (p_secret p) <> [] -> config_ok cfg ->
  (N.of_nat (hello_size cfg (length (c_pub C (p_secret p))) (hash_len C)) <= 65540)%N ->
  cn_new C rbuf wbuf rx tx = Ok c0 -> cn_open C p cfg v c0 = (Ok tt, c) ->
  let psk := option_map fst (cfg_psk cfg) in
  (exists x, client_view C psk (p_secret p) (length rbuf) (stream rx) (tx_log tx) c x) /\
  forall x, client_view C psk (p_secret p) (length rbuf) (stream rx) (tx_log tx) c x ->
    forall s record psk' y,
      length (s_random s) = 32 -> In (code_point C) (map fst iana_cipher_suite) ->
      c_dh C (p_secret p) (c_pub C (s_secret s)) = c_dh C (s_secret s) (c_pub C (p_secret p)) ->
      server_exchange C s record = Some (psk', y) ->
      Forall (fun m => understood C (fst m) (snd m)) (x_before y) ->
      x_finished x = x_finished y ->
      (record = SpecHandshake.hello_record (x_hello x) /\
       (exists binders, g_whole g_record record =
          Some (mk_hello 0x0303 (p_random p) [] [code_point C] [x00] (offered cfg (c_pub C (p_secret p)) binders))) /\
       x_shello x = x_shello y /\ map fst (x_before x) = map fst (x_before y) /\ psk = psk' /\ x_dhe x = x_dhe y /\
       x_client x = x_client y /\ x_server x = x_server y /\
       x_ckey x = x_ckey y /\ x_civ x = x_civ y /\ x_skey x = x_skey y /\ x_siv x = x_siv y /\
       (x_after x = [] ->
          app_keys C psk' y "c ap traffic" = Some (write_key c, write_iv c) /\
          app_keys C psk' y "s ap traffic" = Some (read_key c, read_iv c))) \/
      same_hash C x y \/ same_hmac C psk psk' x y \/ same_derived C psk psk' x.
Proof.
  intros V C p cfg rbuf wbuf rx tx c0 v c HC H32 Hr Hpub Hcfg Hsz Hnew Hopen psk.
  split.
  { destruct (handshake_whole C p cfg rbuf wbuf rx tx c0 v c HC Hnew Hopen)
      as (x & v0 & v1 & ms & _ & Hfl & Hsec & Hfin & _ & _ & Hlog & Hkw & Hkr & _).
    exists x. split; [exact Hfl|]. split; [eexists; exact Hlog|]. repeat (split; [assumption|]). assumption. }
  intros x (Hfl & (evs & Hlog) & Hsec & Hfin & Hkw & Hkr).
  intros s record psk' y Hsr Hcp Hdh Hy Hby Hfe.
  destruct (open_hello C p cfg rbuf wbuf rx tx c0 v c (x_hello x) _ HC H32 Hr Hpub Hcfg Hsz Hnew Hopen Hlog) as (binders & Hg).
  (* the server's exchange *)
  unfold server_exchange, opt_bind in Hy.
  destruct (g_whole g_record record) as [h|] eqn:Eg; [|discriminate].
  destruct (offers_tls13 (h_exts h) && offers_suite C h); [|discriminate].
  destruct (p256_share (h_exts h)) as [share|] eqn:Esh; [|discriminate].
  destruct (pick_psk C s (skipn 5 record) (h_exts h)) as [po|] eqn:Epk; [|discriminate].
  set (hello := skipn 5 record) in *. set (shello := server_hello C s h po) in *.
  destruct (c_dh C (s_secret s) share) as [dhe|] eqn:Edh; [|discriminate].
  destruct (rfc_handshake C (option_map snd po) dhe) as [hs|] eqn:Ehs; [|discriminate].
  destruct (rfc_derive_secret C hs "c hs traffic" (hello ++ shello)) as [cl|] eqn:Ecl; [|discriminate].
  destruct (rfc_derive_secret C hs "s hs traffic" (hello ++ shello)) as [sv|] eqn:Esv; [|discriminate].
  destruct (rfc_key C cl) as [ck|] eqn:Eck; [|discriminate]. destruct (rfc_iv C cl) as [ci|] eqn:Eci; [|discriminate].
  destruct (rfc_key C sv) as [sk|] eqn:Esk; [|discriminate]. destruct (rfc_iv C sv) as [si|] eqn:Esi; [|discriminate].
  destruct (rfc_verify_data C sv ((hello ++ shello) ++ raw (s_messages s (hello ++ shello)))) as [vd|] eqn:Evd; [|discriminate].
  injection Hy as <- Hy. set (before := s_messages s (hello ++ shello)) in *.
  assert (Y : x_hello y = hello /\ x_shello y = shello /\ x_before y = before /\ x_finished y = fin_message vd /\ x_after y = [] /\ x_dhe y = dhe /\
    x_client y = cl /\ x_server y = sv /\ x_ckey y = ck /\ x_civ y = ci /\ x_skey y = sk /\ x_siv y = si /\ x_verify y = vd)
    by (rewrite <- Hy; repeat split).
  clear Hy. destruct Y as (Y1 & Y2 & Y3 & Y4 & Y5 & Y6 & Y7 & Y8 & Y9 & Y10 & Y11 & Y12 & Y13).
  assert (Yh : x_hellos y = hello ++ shello) by (unfold x_hellos; now rewrite Y1, Y2).
  (* the two Finished *)
  destruct Hfl as (h0 & junk & rs & r & ms1 & ms2 & _ & _ & _ & Hush & Hshare & _ & _ & _ & _ & Hund & _).
  destruct Hsec as (Hd1 & hs' & Hhs' & Hcl' & Hsv' & Hck' & Hci' & Hsk' & Hsi').
  assert (Hvx : x_verify x = vd).
  { assert (U : understood C (x_finished x) (M_Finished (x_verify x))).
    { rewrite Forall_forall in Hund. apply (Hund (x_finished x, M_Finished (x_verify x))). unfold x_msgs. apply in_or_app. right. now left. }
    apply finished_content in U. rewrite <- U, Hfe, Y4. unfold fin_message. rewrite vec_eq, app_assoc, skipn_app_exact; [reflexivity|].
    now rewrite app_length, !uint_length. }
  pose proof (proj2 Hfin (x_before x) (x_finished x) (x_verify x) (x_after x) eq_refl) as Hvd. rewrite Hvx in Hvd. fold (confirmed x) in Hvd.
  unfold rfc_verify_data in Hvd, Evd.
  destruct (rfc_expand_label C (x_server x) "finished" [] (hash_len C)) as [k|] eqn:Ek; [|discriminate].
  destruct (rfc_expand_label C sv "finished" [] (hash_len C)) as [k'|] eqn:Ek'; [|discriminate].
  assert (Cy : confirmed y = (hello ++ shello) ++ raw before) by (unfold confirmed; now rewrite Yh, Y3).
  rewrite <- Cy in Evd. injection Hvd as Hvd. injection Evd as Evd.
  assert (Fx : finished_key C psk (x_dhe x) (x_hellos x) = Some k).
  { unfold finished_key, opt_bind. now rewrite Hhs', Hsv'. }
  assert (Fy : finished_key C (option_map snd po) (x_dhe y) (x_hellos y) = Some k').
  { unfold finished_key, opt_bind. now rewrite Y6, Yh, Ehs, Esv. }
  assert (Dec : {(k, c_hash C (confirmed x)) = (k', c_hash C (confirmed y))} + {(k, c_hash C (confirmed x)) <> (k', c_hash C (confirmed y))})
    by (destruct (list_eq_dec Byte.byte_eq_dec k k') as [->|N]; [destruct (list_eq_dec Byte.byte_eq_dec (c_hash C (confirmed x)) (c_hash C (confirmed y))) as [->|N]|];
        [now left|right; intros E; apply pair_equal_spec in E as [_ E]; now apply N|right; intros E; apply pair_equal_spec in E as [E _]; now apply N]).
  destruct Dec as [Ekh|Nkh]; [|right; right; left; exists k, k'; split; [exact Fx|]; split; [exact Fy|]; split; [exact Nkh|congruence]].
  apply pair_equal_spec in Ekh as [-> Ehash].
  destruct (list_eq_dec Byte.byte_eq_dec (confirmed x) (confirmed y)) as [Econf|Nconf]; [|right; left; now split].
  (* the same bytes, hence the same messages *)
  destruct (record_message _ _ Hg) as (bx & Hbx & Ex). destruct (record_message _ _ Eg) as (by' & Hby' & Ey).
  assert (Exh : x_hello x = uint 1 1 ++ vec 3 bx) by (rewrite <- (skipn_record (x_hello x)), Ex; apply skipn_record).
  assert (Eyh : hello = uint 1 1 ++ vec 3 by') by (unfold hello; rewrite Ey; apply skipn_record).
  pose proof Econf as Econf0. rewrite Cy in Econf. unfold confirmed, x_hellos in Econf. rewrite Exh, Eyh, <- !app_assoc in Econf. rewrite !app_assoc in Econf.
  rewrite <- !app_assoc in Econf.
  assert (Econf' : (uint 1 1 ++ vec 3 bx) ++ (x_shello x ++ raw (x_before x)) = (uint 1 1 ++ vec 3 by') ++ (shello ++ raw before)) by (rewrite <- !app_assoc; exact Econf).
  clear Econf. apply hello_split in Econf' as [-> Econf]; auto.
  assert (Ehello : hello = x_hello x) by congruence.
  assert (Erec : record = SpecHandshake.hello_record (x_hello x)) by congruence.
  rewrite Erec, Hg in Eg. injection Eg as <-. cbn [h_exts h_session] in *.
  destruct (offered_finds C cfg (c_pub C (p_secret p)) binders) as (_ & _ & Hp256 & _). rewrite Hp256 in Esh. injection Esh as <-.
  destruct (shello_understood C s po HC Hsr Hcp) as (U1 & U2 & _).
  destruct (first_message C _ _ _ _ _ _ Hush U1 Econf) as (Esl & Erest & _). change (x_shello x = shello) in Esl.
  assert (Ebef : map fst (x_before x) = map fst before).
  { apply (flight_split C); [|rewrite <- Y3; exact Hby|exact Erest]. unfold x_msgs in Hund. apply Forall_app in Hund as [Hund _].
    eapply Forall_impl; [|exact Hund]. intros a Ha. apply Ha. }
  assert (Eshare : x_share x = c_pub C (s_secret s)) by (rewrite Esl in Hush; exact (shares_agree C _ _ _ _ _ _ _ _ _ Hush Hshare U1 U2)).
  assert (Edhe : x_dhe x = dhe) by (rewrite Eshare, Hdh, Edh in Hd1; congruence).
  assert (Eh : x_hellos x = x_hellos y) by (rewrite Yh; unfold x_hellos; congruence).
  assert (Decp : {psk = option_map snd po} + {psk <> option_map snd po}) by (apply opt_dec).
  destruct Decp as [Epsk|Npsk]; [left|right; right; right; split; [exact Npsk|]; rewrite Fx, <- Fy, Y6, Eh, Edhe; reflexivity].
  rewrite <- Epsk, <- Edhe, Hhs' in Ehs. injection Ehs as <-. rewrite <- Yh, <- Eh in Ecl, Esv.
  assert (x_client x = cl) by congruence. assert (x_server x = sv) by congruence. subst cl sv.
  split; [exact Erec|]. split; [now exists binders|].
  split; [congruence|]. split; [congruence|]. split; [exact Epsk|]. split; [congruence|]. split; [congruence|]. split; [congruence|].
  do 4 (split; [congruence|]).
  intros Haft.
  assert (Km : key_messages x = x_hellos y ++ raw (x_msgs y)).
  { rewrite key_messages_eq by exact Haft. rewrite Eh. f_equal. unfold x_msgs, raw. rewrite Haft, Y5, !map_app, !concat_app. cbn [map concat fst]. rewrite Y3, Ebef, Hfe. reflexivity. }
  assert (K : forall label key iv, session_keys C psk x label key iv -> app_keys C (option_map snd po) y label = Some (key, iv)).
  { intros label key iv (m & s0 & Hm & Hs0 & Hk & Hi). unfold app_keys, opt_bind. rewrite <- Epsk, Y6, <- Edhe, Hm, <- Km, Hs0, Hk, Hi. reflexivity. }
  split; apply K; assumption.
Qed.

(** The handshake of ToyServer.v meets the premises: the client's view of it is the exchange of the server of PropServer.v, which it
    computes from the record the client sent. *)
Example C59_premises :
  config_ok small_config /\ cn_open toy full_provider small_config 0 full_start = (Ok tt, full_conn) /\
  client_view toy None (p_secret full_provider) 400 (stream full_rx) [] full_conn full_exchange /\
  c_dh toy (p_secret full_provider) (c_pub toy (s_secret full_server)) = c_dh toy (s_secret full_server) (c_pub toy (p_secret full_provider)) /\
  server_exchange toy full_server (SpecHandshake.hello_record plain_hello) = Some (None, full_exchange) /\
  Forall (fun m => understood toy (fst m) (snd m)) (x_before full_exchange) /\ x_after full_exchange = [].
Proof.
  split; [exact small_config_ok|]. split; [exact full_conn_opened|]. split.
  - destruct full_hypotheses as ((evs & Hs) & Hstr & _ & _ & Hsec & Hfin & _).
    split. { rewrite Hstr. apply (followable_whole toy 400 full_exchange full_parts [x17; x03] toy_ok full_followable). }
    split. { rewrite full_conn_opened in Hs. eexists. exact Hs. }
    split; [exact Hsec|]. split; [exact Hfin|].
    split; eexists (some (rfc_master toy None srv_dhe)), (some (rfc_derive_secret toy (some (rfc_master toy None srv_dhe)) _ (key_messages full_exchange)));
      repeat split; vm_compute; reflexivity.
  - split; [reflexivity|]. split; [exact full_server_exchange|]. split; [|reflexivity].
    destruct full_understood as [_ H]. unfold x_msgs in H. apply Forall_app in H as [H _]. eapply Forall_impl; [|exact H]. intros m Hm. apply Hm.
Qed.
Print Assumptions C59_agreement.
