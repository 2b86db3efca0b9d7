(** * C80: closing a connection that [open] did not open *)
From Coq Require Import String List NArith Arith Bool Lia ZArith.
From Coq.Strings Require Import Byte.
From Coq Require Import ZifyBool ZifyNat ZifyN.
From Verif Require Import Base ParseBuffer Buffer Codes Extensions Crypto KeySchedule Config Handshake Record WriteBuffer Transport RecordReader ReadBuffer Connection Api BaseProofs SpecWire SpecCodes SpecMessages WireProofs SpecKeys SpecRecord SpecSend SpecRead SpecHandshake SpecHello PropHello SpecOpen SpecComplete RecordProofs HsWrite HsProofs FlightProofs CompleteProofs PropComplete SpecFailure FailureProofs CaseProofs PropFailure SpecAnswer AnswerProofs Toy ToyRun ToyServer PropPanic PropAnswer BufferProofs KeyProofs WriteProofs HelloProofs ExtProofs PropCert SendProofs SpaceProofs ReopenProofs PropKeys FrameProofs RecvProofs SpecUnopened UnopenedProofs PropReopen.
Import ListNotations.
Local Open Scope list_scope.

Lemma new_unopened C rbuf wbuf rx tx c0 : cn_new C rbuf wbuf rx tx = Ok c0 -> unopened C (length wbuf) 0 c0 /\ wh_tx (cn_wh c0) = tx /\ 24 <= length wbuf.
Proof.
  intros H. pose proof (cn_new_idle C rbuf wbuf rx tx c0 H) as (Hid & Ho & Hp & Htx & _ & _ & _ & HL).
  split; [|split; [exact Htx|lia]]. split; [exact Hid|]. split; [auto|].
  unfold cn_new in H. destruct (wb_new wbuf); try discriminate. cbn [obind] in H. injection H as <-. cbn. lia.
Qed.

(** Before [open]: the peer gets one close_notify. *)
Theorem C80_unopened : forall C rbuf wbuf rx tx c0, crypto_ok C -> cn_new C rbuf wbuf rx tx = Ok c0 ->
  Forall (eq WrOk) (tx_wr tx) -> Forall (eq FlOk) (tx_fl tx) ->
  exists c, step C OpClose c0 = (Ok VUnit, c) /\ sent_log c = tx_log tx ++ goes_out clear_goodbye.
Proof.
  intros C rbuf wbuf rx tx c0 HC Hnew Hwr Hfl. destruct (new_unopened C rbuf wbuf rx tx c0 Hnew) as (Hu & Htx & HL).
  destruct (close_unopened C HC (length wbuf) HL 0 c0 Hu) as (c & Hs & Hl); [reflexivity|rewrite Htx; split; assumption|].
  exists c. split; [exact Hs|]. unfold sent_log. unfold log_of in Hl. now rewrite Hl, Htx.
Qed.

(** After an [open] that did not succeed: one close_notify again, unless a message of the client had no room in the write buffer.  Then
    [close] may send an empty record before it, or panic. *)
Theorem C80_failed : forall V C (p : provider V) cfg rbuf wbuf rx tx v c0 o c1, crypto_ok C -> cn_new C rbuf wbuf rx tx = Ok c0 ->
  cn_open C p cfg v c0 = (o, c1) -> (o = Cancelled \/ exists e, o = Err e) ->
  Forall (eq WrOk) (tx_wr (wh_tx (cn_wh c1))) -> Forall (eq FlOk) (tx_fl (wh_tx (cn_wh c1))) ->
  exists r c, step C OpClose c1 = (r, c) /\
    (r = Ok VUnit /\ sent_log c = sent_log c1 ++ goes_out clear_goodbye \/
     (exists e, o = Err e /\ lacks_room e) /\
       (r = Ok VUnit /\ (exists n b, empty_record C (write_key c1) (write_iv c1) n b /\ sent_log c = sent_log c1 ++ goes_out b ++ goes_out clear_goodbye) \/
        r = Panic PUnwrap /\ sent_log c = sent_log c1)).
Proof.
  intros V C p cfg rbuf wbuf rx tx v c0 o c1 HC Hnew Ho Hfail Hwr Hfl. destruct (new_unopened C rbuf wbuf rx tx c0 Hnew) as (Hu & _ & HL).
  destruct (open_leaves C HC (length wbuf) HL p cfg v c0 o c1 Hu Ho Hfail) as [Hu1|(e & -> & He & Hd & Hiv & [Hop Hpol] & Hn)].
  - destruct (close_unopened C HC (length wbuf) HL 9 c1 Hu1) as (c & Hs & Hl); [reflexivity|split; assumption|]. exists (Ok VUnit), c. split; [exact Hs|]. left. auto.
  - destruct Hd as [(b & Hst)|(Hh & Hpos & _)].
    + destruct (close_stub C HC (length wbuf) HL (RH_Handshake b) 9 c1 Hst Hiv Hop Hpol Hn) as (c & Hs & Hl); [reflexivity|split; assumption|].
      exists (Ok VUnit), c. split; [exact Hs|]. right. split; [eauto|]. left. split; [reflexivity|].
      exists (k_counter (wst (cn_wh c1))), (stub_record C (RH_Handshake b) (wst (cn_wh c1))). split; [|exact Hl].
      unfold empty_record, stub_record. destruct b; [right|left]; reflexivity.
    + destruct (close_stuck C c1 Hh Hpos) as (c & Hs & Hl). exists (Panic PUnwrap), c. split; [exact Hs|]. right. split; [eauto|]. right. split; [reflexivity|].
      unfold sent_log. now rewrite Hl.
Qed.

Theorem C80_goodbye_partial : forall V C (p : provider V) cfg rbuf wbuf rx tx v c0 o c1, crypto_ok C -> cn_new C rbuf wbuf rx tx = Ok c0 ->
  cn_open C p cfg v c0 = (o, c1) -> failed_elsewhere o ->
  Forall (eq WrOk) (tx_wr (wh_tx (cn_wh c1))) -> Forall (eq FlOk) (tx_fl (wh_tx (cn_wh c1))) ->
  exists c, step C OpClose c1 = (Ok VUnit, c) /\ sent_log c = sent_log c1 ++ goes_out clear_goodbye.
Proof.
  intros V C p cfg rbuf wbuf rx tx v c0 o c1 HC Hnew Ho Hfail Hwr Hfl. destruct (new_unopened C rbuf wbuf rx tx c0 Hnew) as (Hu & _ & HL).
  destruct (open_leaves C HC (length wbuf) HL p cfg v c0 o c1 Hu Ho) as [Hu1|(e & -> & He & _)].
  - destruct Hfail as [->|(e & -> & _)]; eauto.
  - destruct (close_unopened C HC (length wbuf) HL 9 c1 Hu1) as (c & Hs & Hl); [reflexivity|split; assumption|]. eauto.
  - exfalso. destruct Hfail as [E|(e' & E & Hn)]; [discriminate|]. injection E as <-. contradiction.
Qed.

(** ** Opening again (C70) *)

Lemma crowded_hello C L ch w tr b : crowded L b ->
  exists e b', wb_write_record C (CR_Handshake (CH_Hello ch) false) w tr b = (Err e, b') /\ wb_hdr b' <> None.
Proof.
  intros (Hh & _ & Hp & Hl). destruct b as [buf pos hd]. cbn [wb_hdr wb_pos wb_buf] in *. subst hd.
  set (r := CR_Handshake (CH_Hello ch) false). set (Pr := firstn pos buf). set (R := skipn pos buf).
  assert (HPr : length Pr = 0 + pos) by (unfold Pr; rewrite firstn_length; lia).
  assert (HR : length R < 17) by (unfold R; rewrite skipn_length; lia).
  assert (Eb : buf = Pr ++ R) by (symmetry; apply firstn_skipn).
  unfold wb_write_record, bind at 1, get at 1. cbn [wb_hdr]. unfold bind at 1.
  unfold wb_start_record, bind at 1, get at 1. cbn [wb_hdr]. unfold bind at 1, wb_set_hdr, modify. cbn [wb_buf wb_pos].
  destruct (encodes_rh5 (cr_header r) Pr R 0 pos HPr) as [H1 H2]. rewrite hdr5_length, <- Eb in H1, H2.
  unfold with_buffer at 1, cb_wrap_with_pos. cbn [wb_buf wb_pos wb_hdr].
  assert (Ea : forall c, (rh_encode (cr_header r) ;;; cb_push_u16 0 ;;; cb_rewind) c = ((rh_encode (cr_header r) ;;; cb_push_u16 0) ;;; cb_rewind) c).
  { intros c. unfold bind. destruct (rh_encode (cr_header r) c) as [[[]| | | |] c1]; reflexivity. }
  rewrite Ea. clear Ea. unfold bind at 1. destruct (le_lt_dec 5 (length R)) as [H5|H5].
  2:{ destruct (H2 H5) as (e & R' & len' & E & _). rewrite E. eexists _, _. split; [reflexivity|discriminate]. }
  rewrite H1 by exact H5. unfold cb_rewind, cb_offset at 1. cbn [cb_len cb_off cb_buf]. rewrite usize_sub_ok by lia. unfold bind at 1.
  destruct (encodes_hello C ch (Pr ++ hdr5 (cr_header r) 0) (skipn 5 R) (pos + 5) 0) as [_ H3].
  { rewrite app_length, hdr5_length. lia. }
  destruct H3 as (e & R' & len' & E & _).
  { rewrite skipn_length. unfold hello_image, hello_body. rewrite !app_length, !vec_length, !app_length, !vec_length, !uint_length. cbn [length]. lia. }
  erewrite with_buffer_err.
  2:{ unfold bind at 1. rewrite forward_ok. unfold bind at 1. rewrite Nat.add_0_r, Nat.sub_0_r.
      unfold r at 1, cr_encode_payload. cbn [cb_buf cb_len]. rewrite <- app_assoc in E. rewrite E. reflexivity. }
  eexists _, _. split; [reflexivity|discriminate].
Qed.

(** A record begun, or no room for the next. *)
Definition stuck (L : nat) (c : conn) : Prop := wb_hdr (wh_wb (cn_wh c)) <> None \/ crowded L (wh_wb (cn_wh c)).
Lemma stuck_open C L V (p : provider V) cfg v c o c' : stuck L c -> cn_open C p cfg v c = (o, c') -> (o <> Ok tt /\ sent_log c' = sent_log c) /\ stuck L c'.
Proof.
  intros Hs H. unfold cn_open in H. destruct (match p_has_verifier p, _ with true, Some n => _ | _, _ => _ end) as [o0 w'].
  unfold bind at 1, lift at 1 in H. destruct o0 as [[]|e0|x| |]; try (apply pair_equal_spec in H as [<- <-]; split; [split; [discriminate|reflexivity]|exact Hs]).
  change (8 + rx_size (rd_rx (cn_rd c))) with (S (7 + rx_size (rd_rx (cn_rd c)))) in H. cbn [open_loop] in H. unfold bind at 1 in H. cbn [process] in H.
  unfold bind at 1 in H. unfold do_client_hello in H. unfold bind at 1, on_conn at 1, on_ks in H. cbn [fst snd] in H.
  destruct (initialize_early_secret C (cn_keysched c) _) as [k1|e0|x| |]; try (apply pair_equal_spec in H as [<- <-]; split; [split; [discriminate|reflexivity]|exact Hs]).
  cbv zeta in H. unfold bind at 1, on_conn at 1 in H. cbn [fst snd] in H.
  unfold cn_write_record in H. unfold bind at 1, get at 1, bind at 1, on_wh, on_wb in H. cbn [cn_with_keysched cn_wh wh_with_ks wh_wb wh_ks] in H.
  match type of H with context [wb_write_record C (CR_Handshake (CH_Hello ?ch) false) ?w ?tr ?b] =>
    assert (E : exists e' b', wb_write_record C (CR_Handshake (CH_Hello ch) false) w tr b = (Err e', b') /\ wb_hdr b' <> None) end.
  { destruct Hs as [Hh|Hc]; [|exact (crowded_hello C L _ _ _ _ Hc)]. unfold wb_write_record, bind at 1, get at 1.
    destruct (wb_hdr (wh_wb (cn_wh c))) eqn:Eh; [|contradiction]. eexists _, _. split; [reflexivity|]. rewrite Eh. discriminate. }
  destruct E as (e' & b' & E & Hb). rewrite E in H. apply pair_equal_spec in H as [<- <-]. split; [split; [discriminate|reflexivity]|left; exact Hb].
Qed.

(** Any number of further [open]s, of whatever outcome. *)
Inductive tried (C : crypto) : conn -> conn -> Prop :=
| tried_none c : tried C c c
| tried_open V (p : provider V) cfg v c o c1 c2 : cn_open C p cfg v c = (o, c1) -> tried C c1 c2 -> tried C c c2.

(** An [open] that did not succeed leaves the write buffer at rest, unless a message had no room; then no further [open], whatever it is
    given and however many there are, succeeds or sends anything. *)
Theorem C70_no_room : forall V C (p : provider V) cfg rbuf wbuf rx tx v c0 o c1, crypto_ok C -> cn_new C rbuf wbuf rx tx = Ok c0 ->
  cn_open C p cfg v c0 = (o, c1) -> (o = Cancelled \/ exists e, o = Err e) ->
  (wb_pos (wh_wb (cn_wh c1)) = 0 /\ wb_hdr (wh_wb (cn_wh c1)) = None) \/
  (exists e, o = Err e /\ lacks_room e) /\
    forall c2 V' (p' : provider V') cfg' v' o' c3, tried C c1 c2 -> cn_open C p' cfg' v' c2 = (o', c3) -> o' <> Ok tt /\ sent_log c3 = sent_log c1.
Proof.
  intros V C p cfg rbuf wbuf rx tx v c0 o c1 HC Hnew Ho Hfail. destruct (new_unopened C rbuf wbuf rx tx c0 Hnew) as (Hu & _ & HL).
  destruct (open_leaves C HC (length wbuf) HL p cfg v c0 o c1 Hu Ho Hfail) as [Hu1|(e & -> & He & Hd & _)].
  - left. destruct Hu1 as ([(_ & Hp & Hh) _] & _). auto.
  - right. split; [eauto|]. intros c2 V' p' cfg' v' o' c3 Ht H.
    assert (Hs : stuck (length wbuf) c1).
    { destruct Hd as [(b & R & Eb & _)|Hc]; [left; rewrite Eb; discriminate|right; exact Hc]. }
    clear - Ht Hs H. induction Ht as [c|W q g u c o c1 c2 Hq Ht IH].
    + exact (proj1 (stuck_open C _ _ p' cfg' v' c o' c3 Hs H)).
    + destruct (stuck_open C _ _ q g u c o c1 Hs Hq) as [[_ El] Hs1]. rewrite <- El. exact (IH H Hs1).
Qed.
Print Assumptions C70_no_room.

(** The ClientHello does not fit: [open] fails and has sent nothing, and [close] sends an empty handshake record. *)
Theorem C80_hello_refuted : forall V C (p : provider V) cfg rbuf wbuf rx tx v v0 c0, crypto_ok C -> length (p_random p) = 32 ->
  Forall (eq WrOk) (tx_wr tx) -> Forall (eq FlOk) (tx_fl tx) -> told p cfg v v0 -> cn_new C rbuf wbuf rx tx = Ok c0 ->
  length wbuf < hello_size cfg (length (c_pub C (p_secret p))) (hash_len C) ->
  exists e c1 c, cn_open C p cfg v c0 = (Err e, c1) /\ sent_log c1 = tx_log tx /\
    step C OpClose c1 = (Ok VUnit, c) /\ sent_log c = tx_log tx ++ goes_out empty_handshake_record ++ goes_out clear_goodbye.
Proof.
  intros V C p cfg rbuf wbuf rx tx v v0 c0 HC Hrnd Hwr Hfl Htold Hnew Hsz.
  destruct (new_unopened C rbuf wbuf rx tx c0 Hnew) as (Hu & Htx & HL).
  set (psk := option_map fst (cfg_psk cfg)). set (ch := mk_ch cfg (p_random p) (p_secret p)).
  destruct (C08_key_schedule C psk [] [] [] HC) as (k1 & Hk1 & _ & _ & Htr1 & _).
  destruct (ie_binder C _ _ _ Hk1) as [_ Hst].
  destruct (cn_new_idle C rbuf wbuf rx tx c0 Hnew) as (Hid & Hop & Hpol & Htx0 & _ & Hrd0 & Hks0 & _).
  set (c1 := cn_with_keysched c0 k1).
  assert (Ewb : wh_wb (cn_wh c0) = mk_wbuf wbuf 0 None).
  { unfold cn_new, wb_new in Hnew. destruct (TLS_RECORD_OVERHEAD <? length wbuf); [|discriminate]. cbn [obind] in Hnew. injection Hnew as <-. reflexivity. }
  destruct (no_room_stub C (length wbuf) (CR_Handshake (CH_Hello ch) false) (wh_ks (cn_wh c1)) (tr_of c1) _ wbuf (encodes_hello C ch) ltac:(lia) eq_refl) as (e & W & Hw & _ & HW).
  { rewrite (hello_image_length C ch _ Hrnd) by apply zeros_length. exact Hsz. }
  assert (Hw' : wb_write_record C (CR_Handshake (CH_Hello ch) false) (wh_ks (cn_wh c1)) (tr_of c1) (wh_wb (cn_wh c1)) = (Err e, W)).
  { change (wh_wb (cn_wh c1)) with (wh_wb (cn_wh c0)). now rewrite Ewb. }
  destruct (cn_write_wb _ _ _ _ _ Hw') as [E1 E2]. specialize (E2 e eq_refl).
  set (c2 := mk_conn (cn_rd c1) (cn_dec c1) (mk_whalf W (wh_ks (cn_wh c1)) (wh_tx (cn_wh c1)) (wh_policy (cn_wh c1))) (cn_shared c1) (cn_opened c1)) in *.
  assert (Hcw : cn_write_record C (CR_Handshake (CH_Hello ch) false) c1 = (Err e, c2)).
  { destruct (cn_write_record C _ c1) as [o cx]. cbn in E1, E2. now subst. }
  assert (Hp : process C p cfg St_ClientHello (c0, hs_new v0) = (Err e, (c2, hs_new v0))).
  { cbn [process]. unfold do_client_hello. unfold bind at 1, bind at 1, on_conn at 1, on_ks at 1. cbn [fst snd]. rewrite Hks0. fold psk. rewrite Hk1. fold c1 ch.
    unfold bind at 1, on_conn at 1. cbn [fst snd]. rewrite Hcw. reflexivity. }
  assert (Hopen : cn_open C p cfg v c0 = (Err e, c2)).
  { assert (Hhost : host_step p cfg v = (Ok tt, v0)).
    { unfold host_step, told in *. destruct (cfg_server_name cfg), (p_has_verifier p); congruence. }
    unfold cn_open. fold (host_step p cfg v). rewrite Hhost. unfold bind at 1, lift at 1.
    change (8 + rx_size (rd_rx (cn_rd c0))) with (S (7 + rx_size (rd_rx (cn_rd c0)))).
    rewrite TermProofs.open_loop_round by discriminate. unfold bind at 1. now rewrite Hp. }
  assert (Ews : wst (cn_wh c2) = wst (cn_wh c0)).
  { unfold wst. change (wh_ks (cn_wh c2)) with (ks_w k1). rewrite Hst. change (wh_ks (cn_wh c0)) with (ks_w (cn_keysched c0)). now rewrite Hks0. }
  destruct Hu as (Hid' & _ & Hc0).
  destruct (close_stub C HC (length wbuf) HL (RH_Handshake false) 0 c2 HW) as (c & Hs & Hl).
  { rewrite Ews. apply Hid'. } { exact Hop. } { exact Hpol. } { rewrite Ews. exact Hc0. } { reflexivity. }
  { change (wh_tx (cn_wh c2)) with (wh_tx (cn_wh c0)). rewrite Htx. split; assumption. }
  exists e, c2, c. split; [exact Hopen|]. assert (Hlog : sent_log c2 = tx_log tx) by (unfold sent_log; change (wh_tx (cn_wh c2)) with (wh_tx (cn_wh c0)); now rewrite Htx).
  split; [exact Hlog|]. split; [exact Hs|]. unfold sent_log in *. unfold log_of in Hl. rewrite Hl, Hlog. reflexivity.
Qed.

(** The certificate does not fit, in answer to a complete flight with a request for one: [open] fails.  If the message had room and only the
    content type and the tag behind it had not, [close] panics and sends nothing; if not even the message had room, [close] sends an empty protected record first. *)
Theorem C80_certificate_refuted : forall V C (p : provider V) cfg wbuf tx v v0 d, crypto_ok C -> length (p_random p) = 32 ->
  hello_size cfg (length (c_pub C (p_secret p))) (hash_len C) <= length wbuf ->
  Forall (eq WrOk) (tx_wr tx) -> Forall (eq FlOk) (tx_fl tx) -> told p cfg v v0 -> p_client_cert p = Some (CE_X509 d) ->
  exists hello,
    (forall rbuf rx c0, cn_new C rbuf wbuf rx tx = Ok c0 ->
       exists evs, sent_log (snd (cn_open C p cfg v c0)) = tx_log tx ++ goes_out (SpecHandshake.hello_record hello) ++ evs) /\
    forall rbuf rx c0 x rest v1 ctx, cn_new C rbuf wbuf rx tx = Ok c0 -> chunked rx ->
      x_hello x = hello -> whole_flight C (length rbuf) (stream rx) x rest ->
      secrets_ok C (option_map fst (cfg_psk cfg)) (p_secret p) x -> finishes C x ->
      (p_has_verifier p = true -> accepts_all p (x_hellos x) (x_msgs x) v0 v1) ->
      answered x = Some ctx ->
      (5 + length (cert_message ctx [d]) <= length wbuf < 22 + length (cert_message ctx [d]) ->
         exists e c1 c, cn_open C p cfg v c0 = (Err e, c1) /\ step C OpClose c1 = (Panic PUnwrap, c) /\
           sent_log c1 = tx_log tx ++ goes_out (SpecHandshake.hello_record hello) /\ sent_log c = sent_log c1) /\
      (length wbuf < 5 + length (cert_message ctx [d]) ->
         exists e c1 c, cn_open C p cfg v c0 = (Err e, c1) /\ step C OpClose c1 = (Ok VUnit, c) /\
           sent_log c1 = tx_log tx ++ goes_out (SpecHandshake.hello_record hello) /\
           sent_log c = sent_log c1 ++ goes_out (rfc_record C (x_ckey x) (x_civ x) 0 ty_handshake [] 0) ++ goes_out clear_goodbye).
Proof.
  intros V C p cfg wbuf tx v v0 d HC Hrnd Hsz Hwr Hfl Htold Hcc.
  destruct (hello_goes C p cfg wbuf tx HC Hrnd Hsz (conj Hwr Hfl)) as (hello & Hh). exists hello. destruct (Hh v v0 Htold) as [Hsent Hgo]. split; [exact Hsent|].
  intros rbuf rx c0 x rest v1 ctx Hnew Hch Hhello Hwf Hsec Hfin Hacc Hans.
  destruct (Hgo rbuf rx c0 x rest v1 Hnew Hch Hhello Hwf Hsec Hfin Hacc) as (s & c & h & Hg & Hcs & Htr & Hst & Hlog & _ & _ & _ & Hs & _).
  rewrite Hans in Hs. destruct Hs as (-> & Hcr & _). rewrite Hhello in Hlog.
  destruct (new_unopened C rbuf wbuf rx tx c0 Hnew) as (Hu & Htx & HL).
  assert (Hu1 : unopened C (length wbuf) 1 c) by exact (goes_unopened C HC (length wbuf) HL p cfg _ _ _ _ _ _ Hg Hu).
  destruct Hcs as (Hid & Htxc & _). pose proof Hid as [(Hl & Hp & Hhd) Hiv].
  set (m := CH_Cert (mk_cert [] ctx [CE_X509 d])).
  assert (Hwire : msg_wire m = cert_message ctx [d]) by reflexivity.
  assert (Henc : encodes (enc_client_handshake C m) (msg_wire m) tt) by apply (encodes_x509 C [] ctx [d]).
  assert (Ewb : wh_wb (cn_wh c) = mk_wbuf (wb_buf (wh_wb (cn_wh c))) 0 None) by (rewrite (wbuf_eta (wh_wb (cn_wh c))) at 1; now rewrite Hp, Hhd).
  assert (Hend : forall e W, wb_write_record C (CR_Handshake m true) (wh_ks (cn_wh c)) (tr_of c) (wh_wb (cn_wh c)) = (Err e, W) ->
    cn_open C p cfg v c0 = (Err e, mk_conn (cn_rd c) (cn_dec c) (mk_whalf W (wh_ks (cn_wh c)) (wh_tx (cn_wh c)) (wh_policy (cn_wh c))) (cn_shared c) (cn_opened c))).
  { intros e W Hw. destruct (cn_write_wb _ _ _ _ _ Hw) as [E1 E2]. specialize (E2 e eq_refl).
    set (c2 := mk_conn _ _ _ _ _) in *.
    assert (Hcw : cn_write_record C (CR_Handshake m true) c = (Err e, c2)).
    { destruct (cn_write_record C _ c) as [o cx]. cbn in E1, E2. now subst. }
    assert (Hpr : process C p cfg St_ClientCert (c, h) = (Err e, (c2, hs_set_traffic (Some (tr_of c)) h))).
    { cbn [process]. unfold do_client_cert. unfold bind at 1. unfold bind at 1, get at 1. unfold bind at 1, mod_hs, modify. cbn [fst snd].
      unfold bind at 1, lift at 1. rewrite Hcr, Hcc. cbn [ok_or]. unfold bind at 1, on_conn at 1. cbn [fst snd]. fold m. rewrite Hcw. reflexivity. }
    destruct (cn_new_idle C rbuf wbuf rx tx c0 Hnew) as (Hid0 & _ & _ & _ & _ & Hrd0 & _).
    assert (Hhost : host_step p cfg v = (Ok tt, v0)).
    { unfold host_step, told in *. destruct (cfg_server_name cfg), (p_has_verifier p); congruence. }
    unfold cn_open. fold (host_step p cfg v). rewrite Hhost. unfold bind at 1, lift at 1.
    assert (Hb0 : RecvProofs.between (cn_rd c0)) by (rewrite Hrd0; split; [unfold FrameProofs.rd_wf; cbn; lia|reflexivity]).
    rewrite (goes_stops C p cfg (length wbuf) (8 + rx_size (rd_rx (cn_rd c0))) _ _ _ _ _ _ _ _ _ HC Hid0 Hb0 Hg ltac:(discriminate) Hpr ltac:(discriminate)).
    + reflexivity.
    + cbn [TermProofs.rank]. lia. }
  split; intros Hlen; rewrite <- Hwire in Hlen.
  - destruct (no_tag_stuck C (length wbuf) m (wh_ks (cn_wh c)) (tr_of c) (wb_buf (wh_wb (cn_wh c))) HC Hiv I Henc Hl Hlen) as (e & W & Hw & K1 & K2 & _).
    rewrite <- Ewb in Hw. exists e. eexists. destruct (close_stuck C (mk_conn (cn_rd c) (cn_dec c) (mk_whalf W (wh_ks (cn_wh c)) (wh_tx (cn_wh c)) (wh_policy (cn_wh c))) (cn_shared c) (cn_opened c)) K1 K2) as (c' & Hs' & Hl').
    exists c'. split; [exact (Hend e W Hw)|]. split; [exact Hs'|]. split; [exact Hlog|]. unfold sent_log. now rewrite Hl'.
  - destruct (no_room_stub C (length wbuf) (CR_Handshake m true) (wh_ks (cn_wh c)) (tr_of c) (msg_wire m) (wb_buf (wh_wb (cn_wh c))) Henc ltac:(lia) Hl Hlen) as (e & W & Hw & _ & K).
    rewrite <- Ewb in Hw. exists e. eexists.
    destruct Hu1 as (_ & [Hop Hpol] & Hcnt).
    destruct (close_stub C HC (length wbuf) HL (RH_Handshake true) 1 (mk_conn (cn_rd c) (cn_dec c) (mk_whalf W (wh_ks (cn_wh c)) (wh_tx (cn_wh c)) (wh_policy (cn_wh c))) (cn_shared c) (cn_opened c)) K) as (c' & Hs' & Hl').
    { exact Hiv. } { exact Hop. } { exact Hpol. } { exact Hcnt. } { reflexivity. } { exact Htxc. }
    exists c'. split; [exact (Hend e W Hw)|]. split; [exact Hs'|]. split; [exact Hlog|].
    unfold sent_log. unfold log_of in Hl'. rewrite Hl'. cbn [cn_wh wh_tx]. unfold wst in *. cbn [cn_wh wh_ks] in *. rewrite Hst. reflexivity.
Qed.

(** ** Concrete cases *)

(** A connection that was never opened, and one on which the server said nothing. *)
Example C80_unopened_case : exists c0 c, cn_new toy (zeros 400) (zeros 300) [] silent = Ok c0 /\
  step toy OpClose c0 = (Ok VUnit, c) /\ sent_log c = goes_out clear_goodbye.
Proof.
  eexists. pose proof (C80_unopened toy (zeros 400) (zeros 300) [] silent _ toy_ok eq_refl (Forall_nil _) (Forall_nil _)) as (c & H1 & H2).
  exists c. split; [reflexivity|]. split; [exact H1|exact H2].
Qed.

Definition unanswered : outcome tls_error unit * conn := Eval vm_compute in
  match cn_new toy (zeros 400) (zeros 300) [] silent with
  | Ok c0 => cn_open toy (answering None (Err InvalidPrivateKey) 16) small_config tt c0
  | _ => (Diverge, full_start)
  end.

Example C80_unanswered_case : failed_elsewhere (fst unanswered) /\
  exists c, step toy OpClose (snd unanswered) = (Ok VUnit, c) /\ sent_log c = sent_log (snd unanswered) ++ goes_out clear_goodbye.
Proof.
  assert (Hf : failed_elsewhere (fst unanswered)).
  { right. eexists. split; [reflexivity|]. unfold lacks_room. intros [H|[H|H]]; discriminate H. }
  split; [exact Hf|].
  assert (Ho : exists c0, cn_new toy (zeros 400) (zeros 300) [] silent = Ok c0 /\ cn_open toy (answering None (Err InvalidPrivateKey) 16) small_config tt c0 = unanswered).
  { eexists. split; [reflexivity|]. vm_compute. reflexivity. }
  destruct Ho as (c0 & Hn & Ho).
  eapply C80_goodbye_partial; [exact toy_ok|exact Hn|rewrite Ho; apply surjective_pairing|exact Hf|apply Forall_nil|apply Forall_nil].
Qed.

(** A write buffer too small for the ClientHello. *)
Example C80_hello_case : exists c0 e c1 c, cn_new toy (zeros 400) (zeros 129) [] silent = Ok c0 /\
  cn_open toy (answering None (Err InvalidPrivateKey) 16) small_config tt c0 = (Err e, c1) /\ sent_log c1 = [] /\
  step toy OpClose c1 = (Ok VUnit, c) /\ sent_log c = goes_out empty_handshake_record ++ goes_out clear_goodbye.
Proof.
  eexists. destruct (C80_hello_refuted unit toy (answering None (Err InvalidPrivateKey) 16) small_config (zeros 400) (zeros 129) [] silent tt tt _ toy_ok eq_refl
    (Forall_nil _) (Forall_nil _) eq_refl eq_refl) as (e & c1 & c & H1 & H2 & H3 & H4).
  { vm_compute. lia. }
  exists e, c1, c. split; [reflexivity|]. split; [exact H1|]. split; [exact H2|]. split; [exact H3|exact H4].
Qed.

(** The same client, opening again. *)
Example C70_no_room_case : exists c0 e c1, cn_new toy (zeros 400) (zeros 129) [] silent = Ok c0 /\
  cn_open toy (answering None (Err InvalidPrivateKey) 16) small_config tt c0 = (Err e, c1) /\
  forall c2 V' (p' : provider V') cfg' v' o' c3, tried toy c1 c2 -> cn_open toy p' cfg' v' c2 = (o', c3) -> o' <> Ok tt /\ sent_log c3 = sent_log c1.
Proof.
  destruct C80_hello_case as (c0 & e & c1 & c & Hn & H1 & Hl & H2 & H3). exists c0, e, c1. split; [exact Hn|]. split; [exact H1|].
  destruct (C70_no_room unit toy (answering None (Err InvalidPrivateKey) 16) small_config (zeros 400) (zeros 129) [] silent tt c0 (Err e) c1 toy_ok Hn H1 ltac:(eauto))
    as [[_ Hh]|[_ K]]; [exfalso|exact K].
  assert (E : match cn_new toy (zeros 400) (zeros 129) [] silent with
    | Ok c => match wb_hdr (wh_wb (cn_wh (snd (cn_open toy (answering None (Err InvalidPrivateKey) 16) small_config tt c)))) with Some _ => true | None => false end
    | _ => true end = true) by (vm_compute; reflexivity).
  rewrite Hn in E. rewrite H1 in E. cbn [snd] in E. rewrite Hh in E. discriminate.
Qed.

(** The server of ToyServer.v asks for a certificate: one of 270 bytes is too long for a write buffer of 300 only because of the tag, one of 300
    bytes in any case. *)
Example C80_certificate_case :
  (exists e c1 c, cn_open toy (answering (Some (CE_X509 (repeat x00 270))) (Err InvalidPrivateKey) 16) small_config tt full_start = (Err e, c1) /\
     step toy OpClose c1 = (Panic PUnwrap, c) /\ sent_log c = goes_out (SpecHandshake.hello_record (x_hello full_exchange))) /\
  (exists e c1 c, cn_open toy (answering (Some (CE_X509 (repeat x00 300))) (Err InvalidPrivateKey) 16) small_config tt full_start = (Err e, c1) /\
     step toy OpClose c1 = (Ok VUnit, c) /\ sent_log c = sent_log c1 ++
       goes_out (rfc_record toy (x_ckey full_exchange) (x_civ full_exchange) 0 ty_handshake [] 0) ++ goes_out clear_goodbye).
Proof.
  destruct full_hypotheses as (_ & Hstr & Hsz & _ & Hsec & Hfin & _).
  assert (G : forall d, (5 + length (cert_message [x07; x08] [d]) <= 300 < 22 + length (cert_message [x07; x08] [d]) ->
     exists e c1 c, cn_open toy (answering (Some (CE_X509 d)) (Err InvalidPrivateKey) 16) small_config tt full_start = (Err e, c1) /\
       step toy OpClose c1 = (Panic PUnwrap, c) /\ sent_log c = goes_out (SpecHandshake.hello_record (x_hello full_exchange))) /\
    (300 < 5 + length (cert_message [x07; x08] [d]) ->
     exists e c1 c, cn_open toy (answering (Some (CE_X509 d)) (Err InvalidPrivateKey) 16) small_config tt full_start = (Err e, c1) /\
       step toy OpClose c1 = (Ok VUnit, c) /\ sent_log c = sent_log c1 ++
         goes_out (rfc_record toy (x_ckey full_exchange) (x_civ full_exchange) 0 ty_handshake [] 0) ++ goes_out clear_goodbye)).
  { intros d.
    destruct (C80_certificate_refuted unit toy (answering (Some (CE_X509 d)) (Err InvalidPrivateKey) 16) small_config (zeros 300) silent tt tt d toy_ok eq_refl Hsz
      (Forall_nil _) (Forall_nil _) eq_refl eq_refl) as (hello & Hpin & H).
    assert (Hh : x_hello full_exchange = hello).
    { assert (Hn : exists c0, cn_new toy (zeros 400) (zeros 300) [] silent = Ok c0) by (eexists; reflexivity). destruct Hn as [c0 Hn].
      destruct (Hpin _ _ _ Hn) as [e1 E1]. destruct (answering_hello (Some (CE_X509 d)) (Err InvalidPrivateKey) 16 c0 Hn) as [e2 E2]. rewrite E1 in E2. cbn [tx_log silent app] in E2.
      symmetry. exact (goes_out_inj _ _ _ _ E2). }
    destruct (H (zeros 400) full_rx full_start full_exchange [x17; x03] tt [x07; x08] full_start_new) as [K1 K2]; auto.
    - unfold chunked, full_rx. constructor; [|constructor; [|constructor; [|constructor]]]; eexists; (split; [reflexivity|discriminate]).
    - rewrite Hstr. apply C44_server_flight; [exact toy_ok|exact full_followable].
    - intros [=].
    - rewrite zeros_length in K1, K2. split; intros Hd.
      + destruct (K1 Hd) as (e & c1 & c & A1 & A2 & A3 & A4). exists e, c1, c. split; [exact A1|]. split; [exact A2|]. rewrite A4, A3, Hh. reflexivity.
      + destruct (K2 Hd) as (e & c1 & c & A1 & A2 & A3 & A4). exists e, c1, c. split; [exact A1|]. split; [exact A2|exact A4]. }
  assert (Hlen : forall n, length (cert_message [x07; x08] [repeat x00 n]) = 15 + n).
  { intros n. unfold cert_message. cbn [map concat]. rewrite !app_length, !vec_length, !app_length, !vec_length, !app_length, !vec_length, repeat_length, uint_length. cbn [length]. lia. }
  split; [apply (proj1 (G _))|apply (proj2 (G _))]; rewrite Hlen; lia.
Qed.
Print Assumptions C80_unopened.
Print Assumptions C80_failed.
Print Assumptions C80_goodbye_partial.
Print Assumptions C80_hello_refuted.
Print Assumptions C80_certificate_refuted.
