(** * A handshake that succeeds, from the first record to the session keys *)
From Coq Require Import String List NArith Arith Bool Lia ZArith.
From Coq.Strings Require Import Byte.
From Coq Require Import ZifyBool ZifyNat ZifyN.
From Verif Require Import Base ParseBuffer Buffer Codes Extensions Crypto KeySchedule Config Handshake Record WriteBuffer
  Transport RecordReader ReadBuffer Connection Api BaseProofs ParseProofs SpecWire SpecCodes SpecMessages WireProofs ExtProofs SpecKeys
  SpecRecord SpecRead KeyProofs RecordProofs SpecSend SendProofs SpecHello PropKeys PropCert HsWrite HsProofs ConnProofs FrameProofs DecryptProofs
  FlagProofs ReadProofs RecvProofs SpecHandshake AcceptProofs SpecComplete FlightProofs.
Import ListNotations.
Local Open Scope list_scope.

Section Open.
Context {V : Type} (C : crypto) (p : provider V) (cfg : tls_config).

(** ** The client's part *)

(** The messages [ms] went out from [c] to [c'] in protected records; the session keys come
    from the transcript [tr0]. *)
Definition answers (ms : list bytes) (tr0 : bytes) (c c' : conn) : Prop :=
  log_of (cn_wh c') = log_of (cn_wh c) ++ protected_flight C (k_key (wst (cn_wh c))) (k_iv (wst (cn_wh c))) (k_counter (wst (cn_wh c))) ms /\
  rd_rx (cn_rd c') = rd_rx (cn_rd c) /\
  exists k k3, ks_shared k = cn_shared c /\ r_transcript (ks_r k) = tr0 /\ initialize_master_secret C k = Ok k3 /\
    wh_ks (cn_wh c') = ks_w k3 /\ rd_ks (cn_rd c') = ks_r k3.

Lemma sent_message L m c msg c1 : not_hello m -> sends C L (CR_Handshake m true) c msg c1 ->
  msg = msg_wire m /\
  log_of (cn_wh c1) = log_of (cn_wh c) ++ goes_out (rfc_record C (k_key (wst (cn_wh c))) (k_iv (wst (cn_wh c))) (k_counter (wst (cn_wh c))) ty_handshake msg 0) /\
  rd_rx (cn_rd c1) = rd_rx (cn_rd c) /\ tr_of c1 = tr_of c ++ msg /\ cn_shared c1 = cn_shared c /\ wst (cn_wh c1) = bump (wst (cn_wh c)).
Proof.
  intros Hm (Hp & Hl & Hr & _ & Hs & _ & Hk & _). unfold rec_wire in Hl. cbn [cr_header rh_is_encrypted rec_type] in Hl.
  split; [destruct m; try contradiction; exact Hp|]. split; [exact Hl|]. unfold tr_of. rewrite Hr.
  unfold wst. rewrite Hk. auto.
Qed.

Lemma sent_fits L m c msg c1 : crypto_ok C -> sends C L (CR_Handshake m true) c msg c1 -> length msg + 22 <= L.
Proof.
  intros HC (_ & _ & _ & _ & _ & _ & _ & _ & _ & Hle). unfold rec_wire in Hle. cbn [cr_header rh_is_encrypted] in Hle.
  rewrite rfc_record_length in Hle by exact HC. lia.
Qed.

Lemma client_finished_phase L client c h c' h' : crypto_ok C -> hrun C p cfg L St_ClientFinished c h c' h' ->
  k_traffic (wst (cn_wh c)) = Some client ->
  exists v tr0, rfc_verify_data C client (tr_of c) = Some v /\ hs_traffic h = Some tr0 /\ answers [fin_message v] tr0 c c' /\
    length (fin_message v) + 22 <= L.
Proof.
  intros HC H Ht. inversion H as [|s cx hx s1 c1 h1 c2 h2 Hp Hr]. subst.
  inversion Hp as [| | | | |cx hx v msg c2 tr k3 Hv Hsd Htr Hk E1 E2 E3 E4 E5 E6]. subst cx hx s1 c1 h1.
  destruct (C11_client_finished C (cn_keysched c) client HC Ht) as (vd & Hvd & Hcf & _).
  assert (v = vd) by congruence. subst vd. exists v, tr. split; [exact Hvd|]. split; [exact Htr|].
  pose proof (sent_fits L _ c msg c2 HC Hsd) as Hfits. split.
  2:{ destruct Hsd as (Hpl & _). cbn [payload_of msg_wire f_verify] in Hpl. now rewrite Hpl in Hfits. }
  apply sent_message in Hsd; [|exact I]. destruct Hsd as (-> & Hl & Hx & Htr' & Hsh & Hb).
  inversion Hr as [cx hx|sx cx hx s1 c1 h1 cy hy Hbad]; [|inversion Hbad]. subst.
  split; [|split].
  - cbn [cn_wh cn_with_keysched wh_with_ks]. unfold log_of in *. cbn [wh_tx protected_flight]. rewrite app_nil_r. exact Hl.
  - exact Hx.
  - exists (mk_keysched (cn_shared c2) (wh_ks (cn_wh c2)) (mk_rks (r_state (rd_ks (cn_rd c2))) tr)), k3. cbn [ks_shared ks_r r_transcript cn_with_keysched cn_wh wh_with_ks wh_ks cn_rd rd_with_ks rd_ks]. auto.
Qed.

Lemma answers_cons m ms tr0 c c1 c' :
  log_of (cn_wh c1) = log_of (cn_wh c) ++ goes_out (rfc_record C (k_key (wst (cn_wh c))) (k_iv (wst (cn_wh c))) (k_counter (wst (cn_wh c))) ty_handshake m 0) ->
  rd_rx (cn_rd c1) = rd_rx (cn_rd c) -> cn_shared c1 = cn_shared c -> wst (cn_wh c1) = bump (wst (cn_wh c)) ->
  answers ms tr0 c1 c' -> answers (m :: ms) tr0 c c'.
Proof.
  intros Hl Hx Hs Hb (A1 & A2 & k & k3 & A3 & A4 & A5 & A6). rewrite Hb in A1. cbn [bump k_key k_iv k_counter] in A1.
  split; [|split; [congruence|]].
  - rewrite A1, Hl. cbn [protected_flight]. now rewrite <- app_assoc.
  - exists k, k3. split; [congruence|]. auto.
Qed.

Lemma client_phase L client c h c' h' : crypto_ok C -> hrun C p cfg L St_ClientCert c h c' h' ->
  k_traffic (wst (cn_wh c)) = Some client ->
  exists ctx ms, hs_certreq h = Some ctx /\ answer C p client (tr_of c) (Some ctx) ms /\ answers ms (tr_of c) c c' /\
    Forall (fun m => length m + 22 <= L) ms /\ signature_fits C p (tr_of c) (Some ctx).
Proof.
  intros HC H Ht. inversion H as [|s cx hx s1 c1 h1 c2 h2 Hp Hr]. subst.
  inversion Hp as [| | |cx hx ctx msg c2 Hc Hsd Hraw E1 E2 E3 E4 E5 E6| |]. subst cx hx c2 h1. exists ctx.
  pose proof (sent_fits L _ _ _ _ HC Hsd) as Hfit1.
  apply sent_message in Hsd; [|exact I]. destruct Hsd as (Em & Hl & Hx & Htr' & Hsh & Hb).
  assert (Hmsg : msg = cert_message ctx (own_certs p)).
  { rewrite Em. unfold cert_message, own_certs. cbn [msg_wire ce_context ce_entries]. unfold certificate_wire, plain.
    destruct (p_client_cert p) as [[d|d]|]; reflexivity. }
  clear Em. unfold answer. rewrite <- Hmsg. pose proof (fun _ : unit => Hmsg) as Hown. clear Hmsg.
  assert (Ht1 : k_traffic (wst (cn_wh c1)) = Some client) by (rewrite Hb; exact Ht).
  destruct (p_client_cert p) as [e|] eqn:Ecc; subst s1.
  - inversion Hr as [|s cx hx s1 c2 h2 c3 h3 Hp2 Hr2]. subst.
    inversion Hp2 as [| | | |cx hx sign scheme m sg msg2 c3 Hsg Hm Hsi Hlen Hsd X1 X2 X3 X4 X5 X6|]. subst cx hx s1 c3 h2.
    pose proof (sent_fits L _ _ _ _ HC Hsd) as Hfit2.
    apply sent_message in Hsd; [|exact I]. destruct Hsd as (Em & Hl2 & Hx2 & Htr2 & Hsh2 & Hb2).
    assert (Hm0 : m = client_signs C (tr_of c1) /\ hash_len C <= 48).
    { unfold cv_client_message in Hm. cbv zeta in Hm. destruct (146 <? _) eqn:E146; [discriminate|]. injection Hm as <-.
      split; [reflexivity|]. apply Nat.ltb_ge in E146. rewrite !app_length, (ok_hash_len C HC), repeat_length in E146.
      change (length (lit "TLS 1.3, client CertificateVerify")) with 33 in E146. cbn [length] in E146. lia. }
    assert (Hm' : m = client_signs C (tr_of c ++ msg)).
    { rewrite (proj1 Hm0). rewrite Htr'. reflexivity. }
    assert (Hmsg2 : msg2 = cv_message (sig_scheme_code scheme) sg) by (rewrite Em; reflexivity).
    apply (client_finished_phase L client) in Hr2; [|exact HC|rewrite Hb2, Hb; exact Ht].
    destruct Hr2 as (v & tr0 & Hv & Htr0 & Hans & Hfit3). cbn [hs_set_traffic hs_traffic] in Htr0.
    assert (tr0 = tr_of c) by congruence. subst tr0.
    exists [msg; msg2; fin_message v]. split; [exact Hc|]. split.
    + exists sign, scheme, sg, v. split; [exact Hsg|]. split; [rewrite <- Hm'; exact Hsi|]. cbv zeta. rewrite <- Hmsg2. split; [|reflexivity].
      rewrite <- Hv, Htr2, Htr', <- app_assoc. reflexivity.
    + split; [eapply answers_cons; eauto; eapply answers_cons; eauto|]. split; [auto|].
      unfold signature_fits. rewrite Ecc. right. split; [|split; [apply Hm0|]].
      * destruct e as [d|d]; [now exists d|]. exfalso. now apply (Hraw d).
      * intros sign' scheme' Hsg'. assert (sign' = sign) by congruence. subst sign'. rewrite <- (Hown tt), <- Hm'. intros sg' Hsi'. assert (sg' = sg) by congruence. subst sg'. exact Hlen.
  - apply (client_finished_phase L client) in Hr; [|exact HC|exact Ht1].
    destruct Hr as (v & tr0 & Hv & Htr0 & Hans & Hfit3). cbn [hs_set_traffic hs_traffic] in Htr0.
    assert (tr0 = tr_of c) by congruence. subst tr0.
    exists [msg; fin_message v]. split; [exact Hc|]. split.
    + exists v. split; [|reflexivity]. rewrite <- Hv, Htr'. reflexivity.
    + split; [eapply answers_cons; eauto|]. split; [auto|]. unfold signature_fits. rewrite Ecc. now left.
Qed.

(** ** ServerHello *)

Lemma server_hello_record s r1 exts : between s ->
  rd_read C s = (Ok (SR_Handshake (SH_ServerHello exts)), r1) ->
  exists h0 shello junk suite items, stream (rd_rx s) = h0 ++ (shello ++ junk) ++ stream (rd_rx r1) /\
    between r1 /\ framed h0 (shello ++ junk) /\ hd_error h0 = Some ty_handshake /\
    understood C shello (M_ServerHello suite items) /\ block_result grp_server_hello 4 [] items = Ok exts /\
    rd_ks r1 = r_with_transcript (rd_ks s) (r_transcript (rd_ks s) ++ shello) /\
    length (shello ++ junk) <= length (rd_buf s) /\ length (rd_buf r1) = length (rd_buf s).
Proof.
  intros Hb Hrd. pose proof (between_read C s _ r1 Hb Hrd) as Hb1.
  destruct (rd_read_any C s _ r1 (proj1 Hb) Hrd) as (Hw1 & Hbl & _ & [[Hf _]|(h & f & Hc & Hdec)]); [contradiction|].
  destruct Hc as (_ & Hfr & Hlf & _ & _ & _ & x & Hx1 & Hx2). unfold rd_wf in Hw1.
  unfold pend in Hx2. rewrite (proj2 Hb), (proj2 Hb1) in Hx2. unfold sub in Hx2. cbn [firstn app] in Hx2. rewrite app_nil_r in Hx2. subst x.
  destruct (sr_decode C h (rd_decoded r1 - length f) f (r_transcript (rd_ks s))) as [[rec0 tr1]|e|y| |] eqn:Ed; try contradiction; [|destruct Hdec; discriminate].
  destruct Hdec as [Hrec Hks]. cbn [fst snd] in *. injection Hrec as <-.
  apply sr_decode_inv in Ed as [(Hh & E & _)|[(Hh & l & d & E)|[(Hh & E & _)|(Hh & y & junk & m & hh & -> & Hra & Hde & E & -> & _)]]]; try discriminate.
  injection E as <-. destruct m; cbn [denotes] in Hde; try contradiction.
  exists h, y, junk, suite, items. repeat (split; [assumption|]). split; [lia|exact Hbl].
Qed.

(** ** The whole handshake *)

Theorem handshake_whole rbuf wbuf rx tx c0 v c : crypto_ok C ->
  cn_new C rbuf wbuf rx tx = Ok c0 -> cn_open C p cfg v c0 = (Ok tt, c) ->
  exists x v0 v1 ms,
    told p cfg v v0 /\
    whole_flight C (length rbuf) (stream rx) x (incoming c) /\
    secrets_ok C (option_map fst (cfg_psk cfg)) (p_secret p) x /\
    finishes C x /\
    (p_has_verifier p = true -> accepts_all p (x_hellos x) (x_msgs x) v0 v1) /\
    answer C p (x_client x) (x_hellos x ++ raw (x_msgs x)) (answered x) ms /\
    sent_log c = tx_log tx ++ goes_out (hello_record (x_hello x)) ++ protected_flight C (x_ckey x) (x_civ x) 0 ms /\
    session_keys C (option_map fst (cfg_psk cfg)) x "c ap traffic" (write_key c) (write_iv c) /\
    session_keys C (option_map fst (cfg_psk cfg)) x "s ap traffic" (read_key c) (read_iv c) /\
    signature_fits C p (x_hellos x ++ raw (x_msgs x)) (answered x) /\
    Forall (fun m => length m + 22 <= length wbuf) ms.
Proof.
  intros HC Hnew Hopen. destruct (cn_new_idle C rbuf wbuf rx tx c0 Hnew) as (Hid & _ & _ & Htx & _ & Hrd0 & Hks0 & _).
  destruct (open_ok C p cfg (length wbuf) v c0 tt c HC Hid Hopen) as (v0 & cz & hz & Hhost & Hrun & ->).
  set (psk := option_map fst (cfg_psk cfg)).
  (* ClientHello *)
  inversion Hrun as [|s cx hx s1 c1 h1 c2 h2 Hp1 Hr1]. subst s cx hx c2 h2. clear Hrun.
  inversion Hp1 as [cx hx k1 hello cx' Hearly Hsend E1 E2 E3 E4 E5 E6| | | | |]. subst cx hx s1 cx' h1. clear Hp1.
  rewrite Hks0 in Hearly. fold psk in Hearly.
  destruct Hsend as (_ & Hlog1 & Hrd1 & _ & Hsh1 & _).
  unfold rec_wire in Hlog1. cbn [cr_header rh_is_encrypted plain_type] in Hlog1.
  (* ServerHello *)
  inversion Hr1 as [|s cx hx s1 c2 h2 c3 h3 Hp2 Hr2]. subst s cx hx c3 h3. clear Hr1.
  inversion Hp2 as [|cx hx r1 exts secret dhe k2 Hread Hsec Hdhe Hhk X1 X2 X3 X4 X5 X6| | | |]. subst cx hx s1 c2 h2. clear Hp2.
  cbn [hs_set_secret hs_secret] in Hsec. injection Hsec as <-.
  assert (Hb0 : between (cn_rd c1)).
  { rewrite Hrd1. cbn [cn_with_keysched cn_rd]. rewrite Hrd0. split; [|reflexivity]. unfold rd_wf. cbn. lia. }
  destruct (server_hello_record (cn_rd c1) r1 exts Hb0 Hread) as (h0 & shello & junk & suite & items & Hstr & Hb1 & Hfr & Hh0 & Hra & Hblk & Hks1 & Hlf0 & Hbl1).
  assert (Hrx0 : rd_rx (cn_rd c1) = rx) by (rewrite Hrd1; cbn [cn_with_keysched cn_rd rd_with_ks rd_rx]; rewrite Hrd0; reflexivity).
  rewrite Hrx0 in Hstr.
  assert (Htr1 : r_transcript (rd_ks (cn_rd c1)) = hello).
  { destruct (C08_key_schedule C psk dhe [] [] HC) as (k1' & Hk1' & _ & _ & Htr & _).
    assert (k1' = k1) by congruence. subst k1'.
    rewrite Hrd1. cbn [rd_with_ks rd_ks r_with_transcript r_transcript tr_after]. unfold tr_of.
    cbn [cn_with_keysched cn_rd rd_with_ks rd_ks]. rewrite Htr. reflexivity. }
  unfold sh_shared_secret in Hdhe. destruct (sh_key_share exts) as [[g share]|] eqn:Eks; [|discriminate].
  pose proof (share_of_block items exts g share Hblk Eks) as Hshare.
  set (trh := hello ++ shello).
  assert (Htr2 : r_transcript (rd_ks r1) = trh) by (rewrite Hks1; cbn [r_with_transcript r_transcript]; now rewrite Htr1).
  destruct (C08_key_schedule C psk dhe trh [] HC) as (k1' & Hk1' & _ & _ & _ & Hphase).
  assert (k1' = k1) by congruence. subst k1'. clear Hk1'.
  destruct (Hphase (mk_keysched (cn_shared c1) (wh_ks (cn_wh c1)) (rd_ks r1))) as (hs & k2' & Hhs & Hk2' & Hw2 & Hr2k & Htr3 & _);
    [cbn [ks_shared]; rewrite Hsh1; reflexivity|exact Htr2|].
  assert (k2' = k2) by congruence. subst k2'. clear Hk2' Hphase.
  destruct Hw2 as (client & ckey & civ & D1 & D2 & D3 & D4 & D5 & D6 & D7).
  destruct Hr2k as (server & skey & siv & F1 & F2 & F3 & F4 & F5 & F6 & F7).
  destruct (ihs_iv C _ _ _ HC Hhk) as (Liv1 & _ & Liv2 & _).
  (* the server's flight *)
  apply (verify_phase C p cfg (length wbuf) server HC) in Hr2;
    [|cbn [cn_rd]; destruct Hb1 as [B1 B2]; split; [exact B1|exact B2]|exact Liv2|exact F4|].
  2:{ unfold rkey. cbn [cn_rd rd_with_ks rd_ks]. rewrite F7. unfold u64_max. lia. }
  destruct Hr2 as (rs & r & ms1 & ms2 & s2 & c2 & h2 & Hr3 & Hs2 & Hstr2 & Hb2 & Hcar1 & Hcar2 & Hnf1 & Hlens & Hcnt & Habs & Htr4 & Hwh2 & Hshd2).
  unfold rkey in Hcar1, Hcar2, Hcnt. cbn [cn_rd rd_with_ks rd_ks rd_rx rd_buf cn_wh cn_shared wh_with_ks] in Hcar1, Hcar2, Hcnt, Hlens, Hstr2, Hwh2, Hshd2.
  rewrite F5, F6, F7 in Hcar1, Hcar2. rewrite F7 in Hcnt. cbn [N.add] in Hcar2, Hcnt.
  remember (ms1 ++ ms2) as msgs eqn:Esplit.
  unfold tr_of in Habs, Htr4. cbn [cn_rd rd_with_ks rd_ks] in Habs, Htr4. rewrite Htr3 in Habs, Htr4.
  destruct (absorb_reads C p server trh _ msgs _ HC Habs) as (Hreads & Hfin & Hacc & _).
  destruct (absorb_state C p server trh _ msgs _ HC Habs) as (_ & Hcr & Hst). cbn [fst snd hs_set_secret hs_certreq hs_v hs_new hs_traffic] in *.
  destruct Hst as [(_ & Hbad & _)|(before & b & vd & after & Emsgs & Hnf & Hst)]; [contradiction|]. rewrite Emsgs in *. clear msgs Emsgs.
  set (x := mk_exchange hello shello suite items (named_group_code g) share before b vd after dhe client server ckey civ skey siv).
  assert (Hmsgs : x_msgs x = before ++ (b, M_Finished vd) :: after) by reflexivity.
  assert (Hlogc2 : log_of (cn_wh c2) = tx_log tx ++ goes_out (hello_record hello)).
  { rewrite Hwh2. unfold log_of in *. cbn [wh_with_ks wh_tx]. rewrite Hlog1. cbn [cn_with_keysched cn_wh wh_with_ks wh_tx]. rewrite Htx. reflexivity. }
  assert (Htrafc : k_traffic (wst (cn_wh c2)) = Some client) by (rewrite Hwh2; exact D4).
  assert (Hcase : exists ms, answer C p client (trh ++ raw (x_msgs x)) (answered x) ms /\ answers ms (key_messages x) c2 cz /\
    Forall (fun m => length m + 22 <= length wbuf) ms /\ signature_fits C p (trh ++ raw (x_msgs x)) (answered x)).
  { destruct (requests before) as [|r0 rq] eqn:Erq.
    - destruct Hst as [-> Htraf].
      destruct (client_finished_phase (length wbuf) client c2 h2 cz hz HC Hr3 Htrafc) as (vf & tr0 & Hvf & Htr0 & Hans & Hfitf).
      exists [fin_message vf]. unfold answered, key_messages, answered. cbn [x_before x]. rewrite Erq.
      split; [exists vf; split; [|reflexivity]; rewrite <- Hvf; unfold tr_of; rewrite Htr4; reflexivity|].
      assert (tr0 = x_hellos x ++ raw (x_before x) ++ x_finished x) by (change (tr0 = trh ++ raw before ++ b); congruence). subst tr0.
      split; [exact Hans|]. split; [auto|exact I].
    - subst s2. destruct (client_phase (length wbuf) client c2 h2 cz hz HC Hr3 Htrafc) as (ctx & ms & Hctx & Hansw & Hans & Hfits & Hsigf).
      exists ms. unfold answered, key_messages, answered. cbn [x_before x]. rewrite Erq. fold x. rewrite Hmsgs.
      assert (Hne : hd_error (rev (requests (before ++ (b, M_Finished vd) :: after))) = Some ctx).
      { destruct (rev (requests (before ++ (b, M_Finished vd) :: after))) as [|q qs]; [congruence|]. cbn. congruence. }
      rewrite Hne. unfold tr_of in Hansw, Hans, Hsigf. rewrite Htr4 in Hansw, Hans, Hsigf. split; [exact Hansw|]. split; [exact Hans|]. split; [exact Hfits|exact Hsigf]. }
  destruct Hcase as (ms & Hansw & (Hlog2 & Hrxz & k & k3 & Hk1 & Hk2 & Hk3 & Hk4 & Hk5) & Hfits & Hsigf).
  exists x, v0, (hs_v h2), ms.
  split. { unfold told. unfold host_step in Hhost. destruct (cfg_server_name cfg); destruct (p_has_verifier p); cbn in Hhost; congruence. }
  split.
  { exists h0, junk, rs, r, ms1, ms2. cbn [x_shello x_suite x_items x_group x_share x_skey x_siv x].
    assert (Hbuf : length (rd_buf (cn_rd c1)) = length rbuf) by (rewrite Hrd1; cbn [rd_with_ks rd_buf cn_with_keysched cn_rd]; rewrite Hrd0; reflexivity).
    split; [|repeat (split; [assumption || congruence|]); split; [constructor; [cbn [snd]; congruence|]; rewrite Hbl1, Hbuf in Hlens; exact Hlens|]].
    2:{ unfold u64_max in Hcnt. change (2 ^ 64)%N with 18446744073709551616%N. lia. }
    unfold incoming, set_opened. cbn [cn_rd]. rewrite Hrxz. unfold wire_of in *. cbn [map concat fst snd].
    rewrite Hstr, Hstr2, <- !app_assoc. reflexivity. }
  split.
  { split; [exact Hdhe|]. exists hs. cbn [x_dhe x_hellos x_hello x_shello x_client x_server x_ckey x_civ x_skey x_siv x].
    unfold x_hellos. cbn [x_hello x_shello x]. fold trh. rewrite <- D5, <- D6, <- F5, <- F6 in *. repeat (split; [assumption || congruence|]). congruence. }
  split. { split; [exact Hnf|]. intros pre b1 v1 post E. rewrite Hmsgs in E. exact (Hfin pre b1 v1 post E). }
  split; [exact Hacc|]. split; [exact Hansw|].
  assert (Hwst : wst (cn_wh c2) = w_state (ks_w k2)) by (rewrite Hwh2; reflexivity).
  split. { unfold sent_log, set_opened. cbn [cn_wh]. unfold log_of in *. rewrite Hlog2, Hlogc2, Hwst, D5, D6, D7, <- app_assoc. reflexivity. }
  destruct (C08_key_schedule C psk dhe trh (key_messages x) HC) as (k1' & Hk1' & _ & _ & _ & Hphase).
  assert (k1' = k1) by congruence. subst k1'. clear Hk1'.
  destruct (Hphase (mk_keysched (cn_shared c1) (wh_ks (cn_wh c1)) (rd_ks r1))) as (hs' & k2' & Hhs' & Hk2' & _ & _ & _ & Hphase2);
    [cbn [ks_shared]; rewrite Hsh1; reflexivity|exact Htr2|].
  assert (k2' = k2) by congruence. subst k2'. clear Hk2' Hphase.
  destruct (Hphase2 k) as (msec & k3' & Hms & Hk3' & Hwk & Hrk & _); [rewrite Hk1, Hshd2; reflexivity|exact Hk2|].
  assert (k3' = k3) by congruence. subst k3'.
  destruct Hwk as (sw & kw & iw & W1 & W2 & W3 & _ & W5 & W6 & _). destruct Hrk as (sr & kr & ir & R1 & R2 & R3 & _ & R5 & R6 & _).
  unfold write_key, write_iv, read_key, read_iv, set_opened. cbn [cn_wh cn_rd]. rewrite Hk4, Hk5, W5, W6, R5, R6.
  split; [exists msec, sw; auto|]. split; [exists msec, sr; auto|]. split; [exact Hsigf|exact Hfits].
Qed.

(** Seen as a list of records. *)
Lemma whole_flight_in room w x rest : whole_flight C room w x rest -> flight_in C w x rest.
Proof.
  intros (h0 & junk & rs & r & ms1 & ms2 & Hw & Hf & Hh & Hu & Hs & Hm & Hc1 & Hc2 & _ & Hall & _).
  exists h0, junk, (rs ++ [r]). split; [exact Hw|]. split; [exact Hf|]. split; [exact Hh|]. split; [apply Hu|]. split; [exact Hs|]. split.
  - rewrite Hm, map_app. apply carried_app; [exact Hc1|exact Hc2].
  - eapply Forall_impl; [|exact Hall]. intros [b m] [H1 H2]. split; [apply H1|exact H2].
Qed.

Theorem handshake_result rbuf wbuf rx tx c0 v c : crypto_ok C ->
  cn_new C rbuf wbuf rx tx = Ok c0 -> cn_open C p cfg v c0 = (Ok tt, c) ->
  exists x v0 v1 ms,
    told p cfg v v0 /\
    flight_in C (stream rx) x (incoming c) /\
    secrets_ok C (option_map fst (cfg_psk cfg)) (p_secret p) x /\
    finishes C x /\
    (p_has_verifier p = true -> accepts_all p (x_hellos x) (x_msgs x) v0 v1) /\
    answer C p (x_client x) (x_hellos x ++ raw (x_msgs x)) (answered x) ms /\
    sent_log c = tx_log tx ++ goes_out (hello_record (x_hello x)) ++ protected_flight C (x_ckey x) (x_civ x) 0 ms /\
    session_keys C (option_map fst (cfg_psk cfg)) x "c ap traffic" (write_key c) (write_iv c) /\
    session_keys C (option_map fst (cfg_psk cfg)) x "s ap traffic" (read_key c) (read_iv c).
Proof.
  intros HC Hnew Hopen. destruct (handshake_whole rbuf wbuf rx tx c0 v c HC Hnew Hopen) as (x & v0 & v1 & ms & H1 & H2 & H3 & H4 & H5 & H6 & H7 & H8 & H9 & _).
  exists x, v0, v1, ms. apply whole_flight_in in H2. auto 12.
Qed.
End Open.
