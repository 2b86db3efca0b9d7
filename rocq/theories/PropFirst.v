(** * C06 and C12 once more, for what [open] sends first *)
From Coq Require Import String List NArith Arith Bool Lia ZArith.
From Coq.Strings Require Import Byte.
From Coq Require Import ZifyBool ZifyNat ZifyN.
From Verif Require Import Base ParseBuffer Buffer Codes Extensions Crypto KeySchedule Config Handshake Record WriteBuffer
  Transport RecordReader ReadBuffer Connection Api
  BaseProofs SpecWire WireProofs SpecCodes SpecMessages SpecKeys KeyProofs SpecRecord RecordProofs SpecSend WriteProofs SendProofs SpecHello HelloProofs PropHello
  HsWrite HsProofs ConnProofs PropKeys SpecHandshake SpecComplete CompleteProofs ServerProofs Toy ToyRun ToyServer.
Import ListNotations.
Local Open Scope list_scope.

Lemma open_round {V} C (p : provider V) cfg v v0 c0 : host_step p cfg v = (Ok tt, v0) ->
  cn_open C p cfg v c0 =
  let '(o, (c', _)) := (s <- process C p cfg St_ClientHello ;; open_loop C p cfg (7 + rx_size (rd_rx (cn_rd c0))) s) (c0, hs_new v0) in
  match o with
  | Ok _ => (Ok tt, mk_conn (cn_rd c') (cn_dec c') (cn_wh c') (cn_shared c') true)
  | Err e => (Err e, c')
  | Panic x => (Panic x, c')
  | Diverge => (Diverge, c')
  | Cancelled => (Cancelled, c')
  end.
Proof.
  intros H. unfold cn_open. fold (host_step p cfg v). rewrite H. clear H. unfold bind at 1, lift at 1.
  now rewrite <- TermProofs.open_loop_round by discriminate.
Qed.

Lemma open_first {V} C (p : provider V) cfg rbuf wbuf rx tx c0 v v0 o c : crypto_ok C -> length (p_random p) = 32 ->
  hello_size cfg (length (c_pub C (p_secret p))) (hash_len C) <= length wbuf -> told p cfg v v0 ->
  cn_new C rbuf wbuf rx tx = Ok c0 -> cn_open C p cfg v c0 = (o, c) ->
  exists w msg n evs, w_binder w = rfc_binder_key C (option_map fst (cfg_psk cfg)) /\
    hello_msg C (mk_ch cfg (p_random p) (p_secret p)) w [] msg /\ n <= length (SpecHandshake.hello_record msg) /\
    sent_log c = tx_log tx ++ TxWrite (SpecHandshake.hello_record msg) n :: evs.
Proof.
  intros HC Hrnd Hsz Ht Hnew Ho. set (psk := option_map fst (cfg_psk cfg)). set (ch := mk_ch cfg (p_random p) (p_secret p)).
  destruct (C08_key_schedule C psk [] [] [] HC) as (k1 & Hk1 & Hbk0 & _ & Htr1 & _).
  destruct (ie_binder C _ _ _ Hk1) as [[bk Hbk] Hst].
  destruct (cn_new_idle C rbuf wbuf rx tx c0 Hnew) as (Hid & _ & _ & Htx0 & _ & Hrd0 & Hks0 & _).
  set (c1 := cn_with_keysched c0 k1).
  assert (Hid1 : idle C (length wbuf) c1).
  { destruct Hid as [A B]. split; [exact A|]. unfold wst, c1. cbn [cn_with_keysched cn_wh wh_with_ks wh_ks]. rewrite Hst. cbn. apply repeat_length. }
  assert (Hb : has_binder (CR_Handshake (CH_Hello ch) false) (wh_ks (cn_wh c1))) by (intros hh e E Hp; exists bk; exact Hbk).
  destruct (wr_rec_fwd C (length wbuf) (CR_Handshake (CH_Hello ch) false) (wh_ks (cn_wh c1)) (tr_of c1) (wh_wb (cn_wh c1)) HC (proj2 Hid1) (proj1 Hid1) eq_refl Hb)
    as (s & tr' & b' & Hw); [split; [exact Hrnd|exact Hsz]|].
  assert (Hcw : exists c2, cn_write_record C (CR_Handshake (CH_Hello ch) false) c1 = (Ok s, c2)).
  { eexists. unfold cn_write_record, bind at 1, get at 1. unfold bind at 1, on_wh at 1, on_wb at 1. fold (tr_of c1). rewrite Hw. reflexivity. }
  destruct Hcw as (c2 & Hcw).
  destruct (cn_write_ok C (length wbuf) (CR_Handshake (CH_Hello ch) false) c1 s c2 HC Hid1 eq_refl Hb Hcw) as (msg & b2 & Hpl & Es & _ & _ & Ec2).
  assert (Hm : hello_msg C ch (ks_w k1) [] msg).
  { cbn [payload_of] in Hpl. unfold c1, tr_of in Hpl. cbn [cn_with_keysched cn_wh wh_with_ks wh_ks cn_rd rd_with_ks rd_ks] in Hpl.
    rewrite Htr1 in Hpl. exact Hpl. }
  assert (Es' : s = SpecHandshake.hello_record msg) by (rewrite Es; reflexivity).
  exists (ks_w k1), msg. clear Hw Es.
  assert (Hlog2 : log_of (cn_wh c2) = tx_log tx).
  { rewrite Ec2. unfold log_of. cbn [cn_wh wh_tx]. unfold c1. cbn [cn_with_keysched cn_wh wh_with_ks wh_tx]. now rewrite Htx0. }
  destruct (respond s (cn_wh c2)) as [ro w'] eqn:Er. destruct (respond_log _ _ _ _ Er) as (n & fl & Hl & Hn & _). rewrite Hlog2 in Hl.
  assert (Hp : forall (h : @hs_data V), process C p cfg St_ClientHello (c0, h) =
    (obind ro (fun _ => Ok St_ServerHello), (mk_conn (cn_rd c2) (cn_dec c2) w' (cn_shared c2) (cn_opened c2), hs_set_secret (Some (p_secret p)) h))).
  { intros h. cbn [process]. unfold do_client_hello. unfold bind at 1, bind at 1, on_conn at 1, on_ks at 1. cbn [fst snd]. rewrite Hks0. fold psk. rewrite Hk1. fold c1 ch.
    unfold bind at 1, on_conn at 1. cbn [fst snd]. rewrite Hcw. unfold bind at 1, mod_hs, modify. cbn [fst snd]. unfold ret at 1.
    unfold bind at 1, on_conn, on_wh. cbn [fst snd]. rewrite Er. destruct ro; reflexivity. }
  assert (Hhost : host_step p cfg v = (Ok tt, v0)).
  { unfold host_step, told in *. destruct (cfg_server_name cfg), (p_has_verifier p); congruence. }
  rewrite (open_round C p cfg v v0 c0 Hhost) in Ho. unfold bind at 1 in Ho.
  pose proof (Hp (hs_new v0)) as Hp0.
  assert (Hend : exists evs, sent_log c = tx_log tx ++ TxWrite s n :: evs).
  { rewrite Hp0 in Ho. destruct ro as [[]|e|x| |]; cbn [obind] in Ho;
      try (injection Ho as _ <-; exists fl; exact Hl).
    cbn [obind] in Hp0. apply (process_pstep C p cfg (length wbuf)) in Hp0; [|exact HC|exact Hid|discriminate].
    destruct (pstep_idle _ _ _ _ _ _ _ _ _ _ HC Hid Hp0) as (Hid3 & _).
    destruct (open_loop C p cfg _ _ _) as [o3 [c3 h3]] eqn:El.
    destruct (open_loop_out C p cfg (length wbuf) HC _ _ _ _ _ _ Hid3 El) as (evs & He & _). cbn [fst cn_wh] in He.
    exists (fl ++ evs). rewrite Hl, <- app_assoc in He. cbn [app] in He.
    destruct o3 as [u|e|x| |]; injection Ho as _ <-; exact He. }
  destruct Hend as (evs & He). exists n, evs. rewrite <- Es'. rewrite He. auto.
Qed.

(** Whatever transport, server and verifier do, unless the verifier refuses the name of the server: what [open] hands to the transport first is
    the record with the ClientHello that offers exactly the configuration. *)
Theorem C06_open : forall V C (p : provider V) cfg rbuf wbuf rx tx c0 v v0 o c, crypto_ok C -> 32 <= hash_len C -> length (p_random p) = 32 ->
  c_pub C (p_secret p) <> [] -> config_ok cfg ->
  hello_size cfg (length (c_pub C (p_secret p))) (hash_len C) <= length wbuf ->
  (N.of_nat (hello_size cfg (length (c_pub C (p_secret p))) (hash_len C)) <= 65540)%N ->
  told p cfg v v0 -> cn_new C rbuf wbuf rx tx = Ok c0 -> cn_open C p cfg v c0 = (o, c) ->
  exists bs n evs binders, sent_log c = tx_log tx ++ TxWrite bs n :: evs /\ n <= length bs /\
    g_whole g_record bs = Some (mk_hello 0x0303 (p_random p) [] [code_point C] [x00] (offered cfg (c_pub C (p_secret p)) binders)).
Proof.
  intros V C p cfg rbuf wbuf rx tx c0 v v0 o c HC H32 Hr Hpub Hcfg Hsz Hsz2 Ht Hnew Ho.
  destruct (open_first C p cfg rbuf wbuf rx tx c0 v v0 o c HC Hr Hsz Ht Hnew Ho) as (w & msg & n & evs & Hb & Hm & Hn & Hs).
  destruct (hello_read C (mk_ch cfg (p_random p) (p_secret p)) w msg HC H32 Hr Hpub Hcfg Hm Hb Hsz2) as (_ & binders & Hg & _).
  exists (SpecHandshake.hello_record msg), n, evs, binders. auto.
Qed.

(** And with a PSK it ends with the binders: for each identity the value of RFC 8446 section 4.2.11.2, with the binder key of that PSK,
    over every byte of the message before the list of binders. *)
Theorem C12_open : forall V C (p : provider V) cfg rbuf wbuf rx tx c0 v v0 o c psk ids, crypto_ok C -> length (p_random p) = 32 ->
  cfg_psk cfg = Some (psk, ids) ->
  hello_size cfg (length (c_pub C (p_secret p))) (hash_len C) <= length wbuf ->
  told p cfg v v0 -> cn_new C rbuf wbuf rx tx = Ok c0 -> cn_open C p cfg v c0 = (o, c) ->
  exists prefix bk binder n evs,
    sent_log c = tx_log tx ++ TxWrite (SpecHandshake.hello_record (prefix ++ vec 2 (concat (map (vec 1) (repeat binder (length ids)))))) n :: evs /\
    rfc_binder_key C (Some psk) = Some bk /\ rfc_verify_data C bk prefix = Some binder /\ length binder = hash_len C.
Proof.
  intros V C p cfg rbuf wbuf rx tx c0 v v0 o c psk ids HC Hr Hp Hsz Ht Hnew Ho.
  destruct (open_first C p cfg rbuf wbuf rx tx c0 v v0 o c HC Hr Hsz Ht Hnew Ho) as (w & msg & n & evs & Hb & Hm & Hn & Hs).
  rewrite Hp in Hb. cbn [option_map fst] in Hb. unfold hello_msg in Hm. cbn [ch_config] in Hm. rewrite Hp in Hm.
  destruct Hm as (bk & binder & Hbk & Hv & ->).
  assert (Hl : length binder = hash_len C).
  { unfold rfc_verify_data in Hv. destruct (rfc_expand_label _ _ _ _ _) as [k|]; [|discriminate]. injection Hv as <-. apply (ok_hmac_len C HC). }
  exists (hello_prefix C (mk_ch cfg (p_random p) (p_secret p)) ids ((1 + hash_len C) * length ids)), bk, binder, n, evs.
  split; [|split; [congruence|split; [exact Hv|exact Hl]]].
  rewrite Hs. do 4 f_equal. rewrite (hello_image_prefix C (mk_ch cfg (p_random p) (p_secret p)) psk ids _ Hp), concat_vec1_length, Hl. do 2 f_equal. lia.
Qed.

(** ** Concrete case *)

(** A configuration that uses every field, over a transport that fails at once. *)
Example C12_open_case : crypto_ok toy /\ 32 <= hash_len toy /\ length (p_random full_provider) = 32 /\ config_ok full_config /\
  hello_size full_config (length (c_pub toy (p_secret full_provider))) (hash_len toy) <= length (zeros 400) /\
  told full_provider full_config 0 1 /\ (exists psk, cfg_psk full_config = Some (psk, [lit "id1"; lit "second"])) /\
  exists c0, cn_new toy [] (zeros 400) [] (mk_txst [WrErr 3 5%N] [] []) = Ok c0.
Proof.
  split; [exact toy_ok|]. split; [vm_compute; lia|]. split; [reflexivity|]. split; [exact full_config_ok|]. 
  split; [rewrite zeros_length; change (length (c_pub toy (p_secret full_provider))) with 33; vm_compute; lia|].
  split; [reflexivity|]. split; [eexists; reflexivity|]. unfold cn_new, wb_new. rewrite zeros_length. eexists. reflexivity.
Qed.

Print Assumptions C06_open.
Print Assumptions C12_open.
