(** * How [open] ends once the server's flight is complete: the steps *)
From Coq Require Import String List NArith Arith Bool Lia ZArith.
From Coq.Strings Require Import Byte.
From Coq Require Import ZifyBool ZifyNat ZifyN.
From Verif Require Import Base ParseBuffer Buffer Codes Extensions Crypto KeySchedule Config Handshake Record WriteBuffer
  Transport RecordReader ReadBuffer Connection Api BaseProofs ParseProofs SpecWire SpecCodes SpecMessages WireProofs BufferProofs ExtProofs SpecKeys
  SpecRecord SpecRead KeyProofs RecordProofs SpecSend SendProofs SpecHello HelloProofs PropHello WriteProofs PropKeys PropCert HsWrite HsProofs ConnProofs FrameProofs DecryptProofs
  FlagProofs ReadProofs RecvProofs SpecHandshake AcceptProofs LocalProofs FlightProofs OpenProofs SpecOpen SpecComplete MessageProofs CompleteProofs SpaceProofs SpecAnswer.
From Verif Require TermProofs.
Import ListNotations.
Local Open Scope list_scope.

(** ** Records that do not fit *)

Lemma close_protected_space C k h pl R : crypto_ok C -> length (k_iv k) = iv_len C ->
  rh_is_encrypted h = true -> length R < 17 -> exists e w,
  wb_close_record C k (mk_wbuf (hdr5 h 0 ++ pl ++ R) (5 + length pl) (Some h)) = (Err e, w) /\
    e = (if length R <? 1 then EncodeError else if length R <? 12 then InsufficientSpace else InvalidApplicationData).
Proof.
  intros HC Hiv He HR.
  unfold wb_close_record, bind at 1, get at 1. cbn [wb_hdr].
  unfold bind at 1, lift at 1, unwrap.
  unfold bind at 1, wb_set_hdr, modify. cbn [wb_buf wb_pos]. rewrite He. cbn [negb].
  unfold bind at 1.
  set (op := bind _ _).
  assert (Hop : exists e c, op (mk_cbuf (hdr5 h 0 ++ pl ++ R) 0 (5 + length pl)) = (Err e, c) /\
    e = (if length R <? 1 then EncodeError else if length R <? 12 then InsufficientSpace else InvalidApplicationData)).
  { unfold op, bind at 1.
    destruct (encodes_enc_err _ _ _ (encodes_push (b8 (content_type_code (rh_trailer_content_type h))))
                 (hdr5 h 0 ++ pl) R 0 (5 + length pl)) as [Hp Hp'].
    { rewrite app_length, hdr5_length. lia. }
    rewrite <- app_assoc in Hp, Hp'. cbn [length] in Hp, Hp'.
    destruct (le_lt_dec 1 (length R)) as [H1|H1].
    - rewrite Hp by lia. unfold bind at 1, cb_offset at 1. cbn [cb_len cb_off cb_buf]. unfold HEADER_LEN.
      rewrite usize_sub_ok by lia.
      unfold bind at 1. unfold encrypt, bind at 1, lift at 1.
      unfold kstate_nonce. rewrite get_nonce_spec by assumption. unfold bind at 1, get at 1.
      unfold cb_capacity. cbn [cb_len cb_buf]. rewrite (ok_tag_len C HC).
      set (pt := pl ++ [b8 (content_type_code (rh_trailer_content_type h))]).
      assert (Hpt : length pt = length pl + 1) by (unfold pt; rewrite app_length; reflexivity).
      rewrite (proj2 (Nat.ltb_ge (length R) 1)) by lia.
      destruct (_ <? 5 + length pl + 1 + 0 - 5 + 16) eqn:E; rewrite !app_length, hdr5_length, skipn_length in E; cbn [length] in E.
      { do 2 eexists. split; [reflexivity|]. rewrite (proj2 (Nat.ltb_lt (length R) 12)) by lia. reflexivity. }
      rewrite (proj2 (Nat.ltb_ge (length R) 12)) by lia.
      rewrite <- app_assoc.
      replace (5 + length pl + 1 + 0 - 5) with (length pt) by lia.
      replace (pl ++ [b8 (content_type_code (rh_trailer_content_type h))] ++ skipn 1 R) with (pt ++ skipn 1 R)
        by (unfold pt; now rewrite <- app_assoc).
      unfold bind at 1, lift at 1, cb_as_slice. cbn [cb_len cb_buf cb_off].
      rewrite slice_rng_ok by (rewrite ?app_length, ?hdr5_length; lia).
      destruct (c_seal _ _ _ _ _) as [ct tag] eqn:Es.
      assert (Hl : length ct = length pt /\ length tag = 16).
      { pose proof (ok_seal_len C HC (k_key k) (rfc_nonce (k_iv k) (k_counter k))
          ([b8 (content_type_code CT_ApplicationData); x03; x03] ++ be16 (N.of_nat (length pt + 16) mod 65536))
          (sub (hdr5 h 0 ++ pt ++ skipn 1 R) 5 (5 + length pt - 5))) as [H2 H3].
        rewrite Es in H2, H3. cbn [fst snd] in *. rewrite (ok_tag_len C HC) in H3. split; [|exact H3].
        rewrite H2. unfold sub. rewrite firstn_length, skipn_length, !app_length, hdr5_length. lia. }
      destruct Hl as [Hct Htag].
      unfold bind at 1, lift at 1. rewrite set_rng_ok by (rewrite ?app_length, ?hdr5_length; lia).
      unfold bind at 1, put. unfold map_err, cb_extend, cb_space, cb_capacity. cbn [cb_buf cb_off cb_len].
      set (b := splice _ _ _).
      assert (Hb : length b = 5 + length pt + length (skipn 1 R)).
      { unfold b. rewrite splice_length by (rewrite ?app_length, ?hdr5_length; lia). rewrite !app_length, hdr5_length. lia. }
      rewrite usize_sub_ok by lia. rewrite Hb, Htag, skipn_length.
      rewrite (proj2 (Nat.ltb_lt _ _)) by lia. do 2 eexists. split; reflexivity.
    - destruct R as [|]; [|cbn [length] in H1; lia].
      destruct Hp' as (e & R' & len' & E & _); [cbn; lia|]. rewrite E. do 2 eexists. split; [reflexivity|].
      cbn [length Nat.ltb Nat.leb]. unfold enc_err, map_err in E. destruct (cb_push _ _) as [[|e1| | |] ?]; inversion E. reflexivity. }
  destruct Hop as (e & c & Hop & Hs). rewrite (with_buffer_err _ _ _ _ _ _ Hop). do 2 eexists. split; [reflexivity|exact Hs].
Qed.

(** Which error a message gives that does not fit. *)
Definition room_error (m : client_handshake) : tls_error := match m with CH_Finished _ => EncodeError | _ => InsufficientSpace end.

Lemma u24_error {A} (op : W A) bs a e Pr R off len : encodes op bs a -> only e op -> length Pr = off + len -> 3 <= length R < 3 + length bs ->
  exists c', with_u24_length op (mk_cbuf (Pr ++ R) off len) = (Err e, c').
Proof.
  intros He Ho Hl HR. unfold with_u24_length, bind at 1, gets at 1. cbn [cb_len].
  unfold bind at 1. destruct (encodes_u24 0 Pr R off len Hl) as [E _]. rewrite E by (cbn; lia). clear E.
  unfold bind at 1, gets at 1. cbn [cb_len]. change (length (be24 0)) with 3.
  destruct (He (Pr ++ be24 0) (skipn 3 R) off (len + 3)) as [_ H]; [rewrite app_length; change (length (be24 0)) with 3; lia|].
  destruct H as (e1 & R' & len' & E & _); [rewrite skipn_length; lia|].
  pose proof (Ho _ _ _ E) as ->. rewrite <- app_assoc in E. unfold bind at 1. rewrite E. eexists. reflexivity.
Qed.

(** Once there is room for the header of the message, this is the error. *)
Definition fails_as C (m : client_handshake) : Prop := forall Pr R off len, length Pr = off + len -> 4 <= length R < length (msg_wire m) ->
  exists c', enc_client_handshake C m (mk_cbuf (Pr ++ R) off len) = (Err (room_error m), c').

Lemma fails_body {A} (op : W A) bs a e t Pr R off len : encodes op bs a -> only e op -> length Pr = off + len -> 4 <= length R < 4 + length bs ->
  exists c', (enc_err (cb_push t) ;;; with_u24_length op) (mk_cbuf (Pr ++ R) off len) = (Err e, c').
Proof.
  intros He Ho Hl HR. unfold bind at 1. destruct (encodes_enc_err _ _ _ (encodes_push t) Pr R off len Hl) as [E _].
  rewrite E by (cbn; lia). clear E. rewrite app_assoc. apply (u24_error op bs a); try assumption.
  - rewrite app_length. cbn [length]. lia.
  - rewrite skipn_length. cbn [length]. lia.
Qed.

Lemma fails_fin C v : fails_as C (CH_Finished (mk_fin v None)).
Proof.
  intros Pr R off len Hl HR. cbn [msg_wire f_verify] in HR. rewrite app_length, uint_length, vec_length in HR.
  unfold enc_client_handshake. eapply fails_body; [apply encodes_enc_err, encodes_extend|apply only_finished|exact Hl|cbn [f_verify]; lia].
Qed.
Lemma fails_cv C v : fails_as C (CH_CertVerify v).
Proof.
  intros Pr R off len Hl HR. cbn [msg_wire] in HR. rewrite app_length, uint_length, vec_length in HR.
  unfold enc_client_handshake. eapply fails_body; [eapply encodes_bind; [apply encodes_uint2|apply encodes_vec2, encodes_extend]|apply only_certificate_verify|exact Hl|lia].
Qed.
Lemma fails_x509 C raw ctx ders : fails_as C (CH_Cert (mk_cert raw ctx (map CE_X509 ders))).
Proof.
  intros Pr R off len Hl HR. cbn [msg_wire ce_context ce_entries] in HR. rewrite app_length, uint_length, vec_length, map_map, map_id in HR.
  unfold enc_client_handshake. eapply fails_body; [apply encodes_cert|apply only_certificate|exact Hl|lia].
Qed.

Lemma write_message_no_room C m w tr buf : fails_as C m -> 9 <= length buf < 5 + length (msg_wire m) ->
  exists W', wb_write_record C (CR_Handshake m true) w tr (mk_wbuf buf 0 None) = (Err (room_error m), W').
Proof.
  intros Hf HL. unfold wb_write_record, bind at 1, get at 1. cbn [wb_hdr]. unfold bind at 1.
  rewrite start_record_ok by lia. unfold bind at 1.
  destruct (Hf (hdr5 (cr_header (CR_Handshake m true)) 0) (skipn 5 buf) 5 0) as [c' He]; [now rewrite hdr5_length|rewrite skipn_length; lia|].
  erewrite with_buffer_err.
  2:{ unfold bind at 1. rewrite forward_ok. unfold bind at 1. unfold cr_encode_payload. rewrite He. reflexivity. }
  eexists. reflexivity.
Qed.

Lemma wr_no_space C m w tr tr1 buf : crypto_ok C -> length (k_iv (w_state w)) = iv_len C ->
  let r := CR_Handshake m true in let pl := msg_wire m in
  encodes (cr_encode_payload C r) pl tt -> fails_as C m -> cr_finish C r w pl tr = Ok (pl, tr1) ->
  9 <= length buf < length pl + 22 ->
  exists e W', wb_write_record C r w tr (mk_wbuf buf 0 None) = (Err e, W') /\ no_space (room_error m) (length buf) pl (Err e).
Proof.
  intros HC Hiv r pl Henc Hfa Hfin Hlt. assert (Ee : rh_is_encrypted (cr_header r) = true) by reflexivity.
  destruct (le_lt_dec (5 + length pl) (length buf)) as [Hfit|Hfit].
  2:{ destruct (write_message_no_room C m w tr buf Hfa) as (W' & He); [split; [lia|exact Hfit]|]. unfold r. rewrite He. exists (room_error m), W'. split; [reflexivity|].
      apply ns_message. exact Hfit. }
  unfold wb_write_record, bind at 1, get at 1. cbn [wb_hdr].
  unfold bind at 1. rewrite start_record_ok by lia. unfold bind at 1.
  erewrite payload_stage; [|exact Henc|exact Hfin|reflexivity|rewrite skipn_length; lia].
  unfold bind at 1.
  destruct (close_protected_space C (w_state w) (cr_header r) pl (skipn (length pl) (skipn 5 buf)) HC Hiv Ee) as (e & w' & -> & He); [rewrite !skipn_length; lia|].
  exists e, w'. split; [reflexivity|]. rewrite !skipn_length in He. rewrite He.
  destruct (Nat.ltb_spec (length buf - 5 - length pl) 1); [apply ns_type; lia|].
  destruct (Nat.ltb_spec (length buf - 5 - length pl) 12); [apply ns_body; lia|apply ns_tag; lia].
Qed.

(** The write half, for the messages of the answer. *)
Lemma write_no_space C L m c : crypto_ok C -> idle C L c -> 9 <= L -> not_hello m -> encodes (enc_client_handshake C m) (msg_wire m) tt -> fails_as C m ->
  ~ has_room L (msg_wire m) ->
  exists e c', cn_write_record C (CR_Handshake m true) c = (Err e, c') /\ no_space (room_error m) L (msg_wire m) (Err e) /\ wh_tx (cn_wh c') = wh_tx (cn_wh c).
Proof.
  intros HC [(Hl & Hp & Hh) Hiv] H9 Hm Henc Hfa Hroom. unfold has_room in Hroom.
  destruct (wr_no_space C m (wh_ks (cn_wh c)) (tr_of c) (tr_of c ++ msg_wire m) (wb_buf (wh_wb (cn_wh c))) HC Hiv)
    as (e & W' & Hw & Hs); [exact Henc|exact Hfa|destruct m; reflexivity || contradiction|lia|].
  rewrite Hl in Hs. rewrite <- Hp, <- Hh in Hw. rewrite <- wbuf_eta in Hw.
  destruct (cn_write_record C (CR_Handshake m true) c) as [o c'] eqn:E. pose proof E as E'.
  unfold cn_write_record, bind at 1, get at 1 in E. unfold bind at 1, on_wh at 1, on_wb at 1 in E. fold (tr_of c) in E. rewrite Hw in E.
  assert (Ho : o = Err e) by congruence. subst o. exists e, c'. split; [reflexivity|]. split; [exact Hs|].
  apply (cn_write_not_ok C _ _ _ _ E'). discriminate.
Qed.

(** ** Raw public keys *)

Lemma with_buffer_panic {A} (op : W A) b pos h x c : op (mk_cbuf b 0 pos) = (Panic x, c) ->
  with_buffer op (mk_wbuf b pos h) = (Panic x, mk_wbuf (cb_buf c) pos h).
Proof. intros H. unfold with_buffer, cb_wrap_with_pos. cbn [wb_buf wb_pos wb_hdr]. now rewrite H. Qed.

(** [m] panics once it has written [bs]; if they do not fit there is an error, and what was there before is untouched. *)
Definition gives_up {A} (m : W A) (bs : bytes) : Prop :=
  forall Pr R off len, length Pr = off + len ->
    (length bs <= length R -> exists c', m (mk_cbuf (Pr ++ R) off len) = (Panic PUnimplemented, c')) /\
    (length R < length bs -> exists e R' len', m (mk_cbuf (Pr ++ R) off len) = (Err e, mk_cbuf (Pr ++ R') off len') /\ length R' = length R).

Lemma gives_up_bind {A B} (m : W A) (a : A) (k : A -> W B) w bs : encodes m w a -> gives_up (k a) bs -> gives_up (bind m k) (w ++ bs).
Proof.
  intros Hm Hk Pr R off len Hl. destruct (Hm Pr R off len Hl) as [H1 H2]. rewrite app_length.
  destruct (le_lt_dec (length w) (length R)) as [Hw|Hw].
  - unfold bind. rewrite H1 by assumption. destruct (Hk (Pr ++ w) (skipn (length w) R) off (len + length w)) as [K1 K2].
    { rewrite app_length. lia. }
    rewrite <- app_assoc, skipn_length in *. split; intros H; [apply K1; lia|].
    destruct K2 as (e & R' & len' & E & HR); [lia|]. exists e, (w ++ R'), len'. rewrite <- app_assoc in E. split; [exact E|]. rewrite app_length. lia.
  - split; [lia|]. intros _. unfold bind. destruct (H2 Hw) as (e & R' & len' & -> & _ & HR & _). eauto 6.
Qed.

Lemma bind_panics {S A B} (m : M S tls_error A) (k : A -> M S tls_error B) s x s' : m s = (Panic x, s') -> bind m k s = (Panic x, s').
Proof. intros H. unfold bind. now rewrite H. Qed.
Lemma bind_errs {S A B} (m : M S tls_error A) (k : A -> M S tls_error B) s x s' : m s = (Err x, s') -> bind m k s = (Err x, s').
Proof. intros H. unfold bind. now rewrite H. Qed.

Lemma gives_up_u24 {A} (op : W A) bs : gives_up op bs -> gives_up (with_u24_length op) ([x00; x00; x00] ++ bs).
Proof.
  intros Hop Pr R off len Hl. 
  assert (Hu : encodes (cb_push_u24 0) [x00; x00; x00] tt) by exact (encodes_u24 0).
  destruct (Hu Pr R off len Hl) as [H1 H2]. cbn [length] in H1, H2. rewrite app_length. cbn [length].
  destruct (le_lt_dec 3 (length R)) as [Hw|Hw].
  - destruct (Hop (Pr ++ [x00; x00; x00]) (skipn 3 R) off (len + 3)) as [K1 K2].
    { rewrite app_length. cbn [length]. lia. }
    rewrite <- app_assoc, skipn_length in K1, K2.
    assert (G : forall A' (k : nat -> nat -> A -> W A'), exists c1 n, (len_pos <- gets cb_len ;; cb_push_u24 0 ;;; start <- gets cb_len ;; r <- op ;; k len_pos start r) (mk_cbuf (Pr ++ R) off len)
      = (r <- op ;; k len n r) c1 /\ c1 = mk_cbuf (Pr ++ [x00; x00; x00] ++ skipn 3 R) off (len + 3)).
    { intros A' k. unfold bind at 1, gets at 1. unfold bind at 1. rewrite H1 by assumption. unfold bind at 1, gets at 1. do 2 eexists. split; reflexivity. }
    unfold with_u24_length. match goal with |- context [bind (gets cb_len) (fun len_pos => bind _ (fun _ => bind _ (fun start => bind op (@?k len_pos start))))] => destruct (G _ k) as (c1 & n & -> & E1) end.
    rewrite <- E1 in K1, K2. split; intros H.
    + destruct K1 as (c' & E); [lia|]. exists c'. eapply bind_panics; exact E.
    + destruct K2 as (e & R' & len' & E & HR); [lia|]. exists e, ([x00; x00; x00] ++ R'), len'. rewrite <- app_assoc in E.
      split; [eapply bind_errs; exact E|]. rewrite app_length. cbn [length]. lia.
  - split; [lia|]. intros _. unfold with_u24_length, bind at 1, gets at 1. unfold bind. destruct (H2 Hw) as (e & R' & len' & -> & _ & HR & _). eauto 6.
Qed.

Lemma raw_gives_up C raw ctx d : gives_up (enc_client_handshake C (CH_Cert (mk_cert raw ctx [CE_RawPublicKey d])))
  ([b8 (handshake_type_code HT_Certificate)] ++ [x00; x00; x00] ++ vec 1 ctx ++ [x00; x00; x00] ++ []).
Proof.
  unfold enc_client_handshake. cbn [client_handshake_type].
  eapply gives_up_bind; [apply encodes_enc_err, encodes_push|].
  apply gives_up_u24. unfold enc_certificate. cbn [ce_context ce_entries].
  eapply gives_up_bind; [apply encodes_vec1, encodes_extend|].
  apply gives_up_u24. intros Pr R off len Hl. split; [|cbn; lia]. intros _. eexists. reflexivity.
Qed.

Lemma write_raw C L c raw ctx d : idle C L c -> 9 <= L ->
  exists o c', cn_write_record C (CR_Handshake (CH_Cert (mk_cert raw ctx [CE_RawPublicKey d])) true) c = (o, c') /\
    wh_tx (cn_wh c') = wh_tx (cn_wh c) /\
    ((13 + length ctx <= L /\ o = Panic PUnimplemented) \/ (L < 13 + length ctx /\ o = Err InsufficientSpace)).
Proof.
  intros [(Hl & Hp & Hh) Hiv] H9. set (r := CR_Handshake _ true). set (buf := wb_buf (wh_wb (cn_wh c))) in *.
  assert (Hb : exists o W', wb_write_record C r (wh_ks (cn_wh c)) (tr_of c) (mk_wbuf buf 0 None) = (o, W') /\
    ((13 + length ctx <= L /\ o = Panic PUnimplemented) \/ (L < 13 + length ctx /\ o = Err InsufficientSpace))).
  { unfold wb_write_record, bind at 1, get at 1. cbn [wb_hdr]. unfold bind at 1.
    rewrite start_record_ok by lia. unfold bind at 1.
    destruct (raw_gives_up C raw ctx d (hdr5 (cr_header r) 0) (skipn 5 buf) 5 0) as [G1 G2]; [now rewrite hdr5_length|].
    rewrite !app_length, skipn_length, vec_length in G1, G2. cbn [length] in G1, G2.
    destruct (le_lt_dec (13 + length ctx) L) as [H|H].
    - destruct G1 as (c' & G1); [lia|]. erewrite with_buffer_panic.
      2:{ unfold bind at 1. rewrite forward_ok. unfold bind at 1. unfold r at 1, cr_encode_payload. rewrite G1. reflexivity. }
      do 2 eexists. split; [reflexivity|]. left. auto.
    - destruct G2 as (e & R' & len' & G2 & _); [lia|].
      assert (e = InsufficientSpace).
      { assert (G : only InsufficientSpace (with_u24_length (enc_certificate (mk_cert raw ctx [CE_RawPublicKey d])))) by apply only_u24, only_certificate.
        unfold enc_client_handshake, bind at 1 in G2. destruct (encodes_enc_err _ _ _ (encodes_push (b8 (handshake_type_code HT_Certificate))) (hdr5 (cr_header r) 0) (skipn 5 buf) 5 0) as [E _]; [now rewrite hdr5_length|].
        cbn [client_handshake_type] in G2. rewrite E in G2 by (rewrite skipn_length; cbn [length]; lia). exact (G _ _ _ G2). }
      subst e. erewrite with_buffer_err.
      2:{ unfold bind at 1. rewrite forward_ok. unfold bind at 1. unfold r at 1, cr_encode_payload. rewrite G2. reflexivity. }
      do 2 eexists. split; [reflexivity|]. right. auto. }
  destruct Hb as (o & W' & Hw & Ho). unfold buf in Hw. rewrite <- Hp, <- Hh in Hw. rewrite <- wbuf_eta in Hw.
  destruct (cn_write_record C r c) as [o' c'] eqn:E. pose proof E as E'.
  unfold cn_write_record, bind at 1, get at 1 in E. unfold bind at 1, on_wh at 1, on_wb at 1 in E. fold (tr_of c) in E. rewrite Hw in E.
  destruct Ho as [(H1 & ->)|(H1 & ->)].
  - assert (o' = Panic PUnimplemented) by congruence. subst o'. do 2 eexists. split; [reflexivity|]. split; [|left; auto].
    apply (cn_write_not_ok C _ _ _ _ E'). discriminate.
  - assert (o' = Err InsufficientSpace) by congruence. subst o'. do 2 eexists. split; [reflexivity|]. split; [|right; auto].
    apply (cn_write_not_ok C _ _ _ _ E'). discriminate.
Qed.

(** ** The phases of the answer *)

Section Phases.
Context {V : Type}.
Variables (C : crypto) (p : provider V) (cfg : tls_config) (L : nat).

(** From the state [s] the handshake ends with the outcome [o], sending [evs]. *)
Definition ends (s : hs_state) (c : conn) (h : @hs_data V) (o : outcome tls_error unit) (evs : list tx_event) : Prop :=
  exists c', log_of (cn_wh c') = log_of (cn_wh c) ++ evs /\
    ((exists h', goes C p cfg s c h St_ApplicationData c' h' /\ o = Ok tt) \/
     exists s1 c1 h1 o1 h', goes C p cfg s c h s1 c1 h1 /\ s1 <> St_ApplicationData /\ process C p cfg s1 (c1, h1) = (o1, (c', h')) /\
       (forall s2, o1 <> Ok s2) /\ o = obind o1 (fun _ => Ok tt)).

Lemma ends_step s c h s1 c1 h1 evs1 o evs2 : s <> St_ApplicationData -> process C p cfg s (c, h) = (Ok s1, (c1, h1)) ->
  log_of (cn_wh c1) = log_of (cn_wh c) ++ evs1 -> ends s1 c1 h1 o evs2 -> ends s c h o (evs1 ++ evs2).
Proof.
  intros Hs Hp Hl (c' & Hl' & H). exists c'. split; [rewrite Hl', Hl; now rewrite app_assoc|].
  destruct H as [(h' & Hg & Ho)|(s2 & c2 & h2 & o1 & h' & Hg & H)].
  - left. exists h'. split; [econstructor; eauto|exact Ho].
  - right. exists s2, c2, h2, o1, h'. split; [econstructor; eauto|exact H].
Qed.

Lemma ends_here s c h o c' h' evs : s <> St_ApplicationData -> process C p cfg s (c, h) = (o, (c', h')) ->
  (forall s2, o <> Ok s2) -> log_of (cn_wh c') = log_of (cn_wh c) ++ evs -> ends s c h (obind o (fun _ => Ok tt)) evs.
Proof. intros Hs Hp Ho Hl. exists c'. split; [exact Hl|]. right. exists s, c, h, o, h'. repeat split; auto. constructor. Qed.

Lemma same_log (w w' : whalf) : wh_tx w' = wh_tx w -> log_of w' = log_of w ++ [].
Proof. intros H. unfold log_of. now rewrite H, app_nil_r. Qed.

Lemma finish_phase c (h : @hs_data V) client key iv n tr0 : crypto_ok C -> 9 <= L -> can_send C L 1 c ->
  wst (cn_wh c) = mk_kstate (Some client) n key iv -> hs_traffic h = Some tr0 ->
  (forall k, ks_shared k = cn_shared c -> r_transcript (ks_r k) = tr0 -> exists k3, initialize_master_secret C k = Ok k3) ->
  exists o out, finish_ends C L client (tr_of c) o out /\ ends St_ClientFinished c h o (protected_records C key iv n out).
Proof.
  intros HC H9 (Hid & Htx & Hn) Hst Htr Hms.
  destruct (C11_client_finished C (cn_keysched c) client HC) as (v & Hvd & Hcf & _).
  { change (w_state (ks_w (cn_keysched c))) with (wst (cn_wh c)). now rewrite Hst. }
  assert (Hv : rfc_verify_data C client (tr_of c) = Some v) by exact Hvd.
  destruct (le_lt_dec (length (fin_message v) + 22) L) as [Hroom|Hroom].
  - exists (Ok tt), [(ty_handshake, fin_message v)]. split; [now apply fe_ok|].
    destruct (sends_fwd C L (CR_Handshake (CH_Finished (mk_fin v None)) true) c h HC Hid I (not_hello_binder _ _ _ (nh_fin _))) as (s & c1 & msg & c2 & Hw & Hresp & Hsd & Htx2).
    { split; [exact Hroom|apply encodes_fin]. }
    { exact Htx. }
    { lia. }
    destruct (sent_message C L _ c msg c2 (nh_fin _) Hsd) as (-> & Hl2 & _).
    destruct (Hms (mk_keysched (cn_shared c2) (wh_ks (cn_wh c2)) (mk_rks (r_state (rd_ks (cn_rd c2))) tr0))) as [k3 Hk3].
    { cbn [ks_shared]. destruct Hsd as (_ & _ & _ & _ & E & _). exact E. }
    { reflexivity. }
    cbn [protected_records].
    apply (ends_step _ _ _ St_ApplicationData (cn_with_keysched c2 k3) (hs_set_traffic None h)); [discriminate| | |].
    + cbn [process].
      unfold do_client_finished. unfold bind at 1. unfold bind at 1, get at 1. unfold bind at 1, lift at 1. cbn [fst snd].
      rewrite Hcf. cbn [omap_err]. unfold on_conn at 1. cbn [fst snd]. rewrite Hw.
      unfold bind at 1. rewrite Hresp.
      unfold client_finished_finalize. unfold bind at 1, get at 1. unfold bind at 1, mod_hs, modify. cbn [fst snd].
      unfold bind at 1, lift at 1. rewrite Htr. cbn [ok_or].
      unfold bind at 1, on_conn at 1, on_rd at 1, set_transcript, modify. cbn [fst snd].
      unfold bind at 1, on_conn at 1, on_ks at 1, cn_keysched. cbn [fst snd cn_rd cn_shared cn_wh rd_ks].
      unfold r_with_transcript. rewrite Hk3. reflexivity.
    + rewrite Hst in Hl2. exact Hl2.
    + exists (cn_with_keysched c2 k3). split; [now rewrite app_nil_r|]. left. eexists. split; [constructor|reflexivity].
  - destruct (write_no_space C L (CH_Finished (mk_fin v None)) c HC Hid H9 (nh_fin _) (encodes_fin C v) (fails_fin C v)) as (e & c' & Hw & Hs & Htx').
    { unfold has_room. change (msg_wire (CH_Finished (mk_fin v None))) with (fin_message v). lia. }
    exists (Err e), []. split; [eapply fe_space; eauto|]. cbn [protected_records].
    apply (ends_here St_ClientFinished c h (Err e) c' h); [discriminate| |discriminate|now apply same_log].
    cbn [process]. unfold do_client_finished. unfold bind at 1. unfold bind at 1, get at 1. unfold bind at 1, lift at 1. cbn [fst snd].
    rewrite Hcf. cbn [omap_err]. unfold on_conn at 1. cbn [fst snd]. rewrite Hw. reflexivity.
Qed.

Lemma cv_message_long tr : crypto_ok C -> 48 < hash_len C -> cv_client_message C tr = Err EncodeError.
Proof.
  intros HC Hl. unfold cv_client_message. cbv zeta. pose proof (ok_hash_len C HC tr) as Hh.
  rewrite (proj2 (Nat.ltb_lt _ _)); [reflexivity|].
  rewrite !app_length, repeat_length. change (length (lit "TLS 1.3, client CertificateVerify")) with 33. cbn [length]. lia.
Qed.

Lemma signature_phase c (h : @hs_data V) client key iv n tr0 : crypto_ok C -> can_send C L 2 c -> 24 <= L ->
  wst (cn_wh c) = mk_kstate (Some client) n key iv -> hs_traffic h = Some tr0 ->
  (forall k, ks_shared k = cn_shared c -> r_transcript (ks_r k) = tr0 -> exists k3, initialize_master_secret C k = Ok k3) ->
  exists o out, signature_ends C p L client (tr_of c) o out /\ ends St_ClientCertVerify c h o (protected_records C key iv n out).
Proof.
  intros HC Hcs HL Hst Htr Hms. pose proof Hcs as (Hid & Htx & Hn).
  assert (Hstart : forall o st, do_client_cert_verify C p (c, h) = (o, st) -> (forall a, o <> Ok a) ->
    process C p cfg St_ClientCertVerify (c, h) = (obind o (fun _ => Diverge), st)).
  { intros o st H Ho. cbn [process]. unfold bind at 1. rewrite H. destruct o; try reflexivity. exfalso. exact (Ho _ eq_refl). }
  assert (Hstop : forall o c' , do_client_cert_verify C p (c, h) = (o, (c', h)) -> (forall a, o <> Ok a) -> wh_tx (cn_wh c') = wh_tx (cn_wh c) ->
    ends St_ClientCertVerify c h (obind o (fun _ => Ok tt)) []).
  { intros o c' H Ho Hx. specialize (Hstart _ _ H Ho).
    replace (obind o (fun _ => Ok tt)) with (obind (obind o (fun _ => @Diverge tls_error hs_state)) (fun _ => Ok tt)) by (destruct o; reflexivity || (exfalso; exact (Ho _ eq_refl))).
    apply (ends_here _ _ _ _ c' h); [discriminate|exact Hstart|destruct o; discriminate|now apply same_log]. }
  destruct (p_signer p) as [[sign scheme]|e|x| |] eqn:Esg.
  - destruct (le_lt_dec (hash_len C) 48) as [H48|H48].
    2:{ exists (Err EncodeError), []. split; [eapply se_hash; eauto|].
        apply (Hstop (Err EncodeError) c); [|discriminate|reflexivity].
        unfold do_client_cert_verify. unfold bind at 1, get at 1. cbn [fst snd]. rewrite Esg. unfold bind at 1, lift at 1.
        rewrite cv_message_long by assumption. reflexivity. }
    assert (Hm : cv_client_message C (r_transcript (rd_ks (cn_rd c))) = Ok (client_signs C (tr_of c))) by (apply cv_message_ok; assumption).
    destruct (sign (client_signs C (tr_of c))) as [sg|] eqn:Es.
    2:{ exists (Panic PUnwrap), []. split; [eapply se_refused; eauto|].
        apply (Hstop (Panic PUnwrap) c); [|discriminate|reflexivity].
        unfold do_client_cert_verify. unfold bind at 1, get at 1. cbn [fst snd]. rewrite Esg. unfold bind at 1, lift at 1.
        rewrite Hm, Es. reflexivity. }
    destruct (le_lt_dec (length sg) (p_sig_cap p)) as [Hcap|Hcap].
    2:{ exists (Panic PUnwrap), []. split; [eapply se_long; eauto|].
        apply (Hstop (Panic PUnwrap) c); [|discriminate|reflexivity].
        unfold do_client_cert_verify. unfold bind at 1, get at 1. cbn [fst snd]. rewrite Esg. unfold bind at 1, lift at 1.
        rewrite Hm, Es, (proj2 (Nat.ltb_lt _ _)) by exact Hcap. reflexivity. }
    destruct (le_lt_dec (length (cv_message (sig_scheme_code scheme) sg) + 22) L) as [Hroom|Hroom].
    + destruct (sends_fwd C L (CR_Handshake (CH_CertVerify (mk_cv scheme sg)) true) c h HC Hid I (not_hello_binder _ _ _ (nh_cv _))) as (s & c1 & msg & c2 & Hw & Hresp & Hsd & Htx2).
      { split; [exact Hroom|apply encodes_cv]. }
      { exact Htx. }
      { lia. }
      pose proof (can_send_next C L 1 _ c msg c2 Hsd Htx2 Hcs) as Hcs2.
      destruct (sent_message C L _ c msg c2 (nh_cv _) Hsd) as (Em & Hl2 & _ & Htr2 & Hsh2 & Hb2).
      change (msg_wire (CH_CertVerify (mk_cv scheme sg))) with (cv_message (sig_scheme_code scheme) sg) in Em. subst msg.
      destruct (finish_phase c2 h client key iv (n + 1)%N tr0 HC ltac:(lia) Hcs2) as (o & out & Ho & He).
      { rewrite Hb2, Hst. reflexivity. }
      { exact Htr. }
      { intros k K1 K2. apply Hms; congruence. }
      rewrite Htr2 in Ho.
      exists o, ((ty_handshake, cv_message (sig_scheme_code scheme) sg) :: out). split; [eapply se_sent; eauto|].
      cbn [protected_records]. apply (ends_step _ _ _ St_ClientFinished c2 h); [discriminate| |rewrite Hst in Hl2; exact Hl2|exact He].
      cbn [process]. unfold do_client_cert_verify. unfold bind at 1. unfold bind at 1, get at 1. cbn [fst snd]. rewrite Esg.
      unfold bind at 1, lift at 1. rewrite Hm, Es.
      rewrite (proj2 (Nat.ltb_ge _ _)) by exact Hcap.
      unfold bind at 1, on_conn at 1. cbn [fst snd]. rewrite Hw. unfold ret at 1. cbn [fst snd]. unfold bind at 1. rewrite Hresp. reflexivity.
    + destruct (write_no_space C L (CH_CertVerify (mk_cv scheme sg)) c HC Hid ltac:(lia) (nh_cv _) (encodes_cv C _) (fails_cv C _)) as (e & c' & Hw & Hs & Htx').
      { unfold has_room. change (msg_wire (CH_CertVerify (mk_cv scheme sg))) with (cv_message (sig_scheme_code scheme) sg). lia. }
      exists (Err e), []. split; [eapply se_space; eauto|].
      apply (Hstop (Err e) c'); [|discriminate|exact Htx'].
      unfold do_client_cert_verify. unfold bind at 1, get at 1. cbn [fst snd]. rewrite Esg. unfold bind at 1, lift at 1.
      rewrite Hm, Es, (proj2 (Nat.ltb_ge _ _)) by exact Hcap.
      unfold bind at 1, on_conn at 1. cbn [fst snd]. rewrite Hw. reflexivity.
  - destruct (sends_fwd C L (CR_Alert AL_Warning AD_CloseNotify true) c h HC Hid I) as (sb & c6 & msg & c7 & Hw & Hresp & Hsd7 & Htx7).
    { intros ? ? [=]. }
    { exact HL. }
    { exact Htx. }
    { lia. }
    exists (Err e), [(ty_alert, uint 1 1 ++ uint 1 0)]. split; [now apply se_none|].
    apply (ends_here St_ClientCertVerify c h (Err e) c7 h); [discriminate| |discriminate|].
    + cbn [process]. unfold do_client_cert_verify. unfold bind at 1. unfold bind at 1, get at 1. cbn [fst snd]. rewrite Esg.
      unfold bind at 1, on_conn at 1. cbn [fst snd]. rewrite Hw. unfold ret at 1. cbn [fst snd]. unfold bind at 1. rewrite Hresp. reflexivity.
    + destruct Hsd7 as (Hpl & Hl7 & _). cbn [payload_of] in Hpl. subst msg. rewrite Hl7, Hst. cbn [protected_records]. rewrite app_nil_r. reflexivity.
  - exists (Panic x), []. split; [now apply se_panic|]. apply (Hstop (Panic x) c); [|discriminate|reflexivity].
    unfold do_client_cert_verify. unfold bind at 1, get at 1. cbn [fst snd]. rewrite Esg. reflexivity.
  - exists Diverge, []. split; [now apply se_diverge|]. apply (Hstop Diverge c); [|discriminate|reflexivity].
    unfold do_client_cert_verify. unfold bind at 1, get at 1. cbn [fst snd]. rewrite Esg. reflexivity.
  - exists Cancelled, []. split; [now apply se_cancelled|]. apply (Hstop Cancelled c); [|discriminate|reflexivity].
    unfold do_client_cert_verify. unfold bind at 1, get at 1. cbn [fst snd]. rewrite Esg. reflexivity.
Qed.

Lemma certificate_phase c (h : @hs_data V) client key iv n ctx : crypto_ok C -> 9 <= L -> can_send C L 3 c ->
  wst (cn_wh c) = mk_kstate (Some client) n key iv -> hs_certreq h = Some ctx ->
  (forall k, ks_shared k = cn_shared c -> r_transcript (ks_r k) = tr_of c -> exists k3, initialize_master_secret C k = Ok k3) ->
  exists o out, answer_ends C p L client (tr_of c) (Some ctx) o out /\ ends St_ClientCert c h o (protected_records C key iv n out).
Proof.
  intros HC H9 Hcs Hst Hcr Hms. pose proof Hcs as (Hid & Htx & Hn).
  set (h' := hs_set_traffic (Some (tr_of c)) h).
  assert (Hproc : forall o c', cn_write_record C (CR_Handshake (CH_Cert (mk_cert [] ctx (match p_client_cert p with Some e => [e] | None => [] end))) true) c = (o, c') ->
    (forall s, o <> Ok s) -> wh_tx (cn_wh c') = wh_tx (cn_wh c) ->
    ends St_ClientCert c h (obind o (fun _ => Ok tt)) []).
  { intros o c' Hw Ho Hx.
    replace (obind o (fun _ => Ok tt)) with (obind (obind o (fun _ => @Diverge tls_error hs_state)) (fun _ => Ok tt)) by (destruct o; reflexivity || (exfalso; exact (Ho _ eq_refl))).
    apply (ends_here _ _ _ _ c' h'); [discriminate| |destruct o; discriminate|now apply same_log].
    cbn [process]. unfold do_client_cert. unfold bind at 1. unfold bind at 1, get at 1. unfold bind at 1, mod_hs, modify. cbn [fst snd].
    unfold bind at 1, lift at 1. rewrite Hcr. cbn [ok_or].
    destruct (p_client_cert p); (unfold bind at 1, on_conn at 1; cbn [fst snd]; unfold tr_of in *; rewrite Hw; destruct o; try reflexivity; exfalso; exact (Ho _ eq_refl)). }
  assert (Hsent : forall ders, map CE_X509 ders = match p_client_cert p with Some e => [e] | None => [] end ->
    has_room L (cert_message ctx ders) ->
    exists c2, process C p cfg St_ClientCert (c, h) = (Ok (match p_client_cert p with Some _ => St_ClientCertVerify | None => St_ClientFinished end), (c2, h')) /\
      can_send C L 2 c2 /\ log_of (cn_wh c2) = log_of (cn_wh c) ++ goes_out (rfc_record C key iv n ty_handshake (cert_message ctx ders) 0) /\
      tr_of c2 = tr_of c ++ cert_message ctx ders /\ cn_shared c2 = cn_shared c /\ wst (cn_wh c2) = mk_kstate (Some client) (n + 1) key iv).
  { intros ders He Hroom.
    assert (Hwire : msg_wire (CH_Cert (mk_cert [] ctx (map CE_X509 ders))) = cert_message ctx ders).
    { unfold cert_message. cbn [msg_wire ce_context ce_entries]. unfold certificate_wire, plain, entries_wire. rewrite !map_map. reflexivity. }
    destruct (sends_fwd C L (CR_Handshake (CH_Cert (mk_cert [] ctx (map CE_X509 ders))) true) c h' HC Hid I (not_hello_binder _ _ _ (nh_cert _))) as (s & c1 & msg & c2 & Hw & Hresp & Hsd & Htx2).
    { split; [rewrite Hwire; exact Hroom|]. apply encodes_x509. }
    { exact Htx. }
    { lia. }
    destruct (sent_message C L _ c msg c2 (nh_cert _) Hsd) as (Em & Hl2 & _ & Htr2 & Hsh2 & Hb2). rewrite Hwire in Em. subst msg.
    exists c2. split; [|split; [exact (can_send_next C L 2 _ c _ c2 Hsd Htx2 Hcs)|]].
    - cbn [process]. unfold do_client_cert. unfold bind at 1. unfold bind at 1, get at 1. unfold bind at 1, mod_hs, modify. cbn [fst snd].
      unfold bind at 1, lift at 1. rewrite Hcr. cbn [ok_or]. rewrite He in Hw.
      destruct (p_client_cert p); (unfold bind at 1, on_conn at 1; cbn [fst snd]; unfold h', tr_of in *; rewrite Hw; unfold ret at 1; cbn [fst snd];
        unfold bind at 1; rewrite Hresp; reflexivity).
    - rewrite Hst in Hl2, Hb2. auto. }
  assert (Hfull : forall ders, map CE_X509 ders = match p_client_cert p with Some e => [e] | None => [] end ->
    ~ has_room L (cert_message ctx ders) -> exists e, no_space InsufficientSpace L (cert_message ctx ders) (Err e) /\ ends St_ClientCert c h (Err e) []).
  { intros ders He Hroom.
    assert (Hwire : msg_wire (CH_Cert (mk_cert [] ctx (map CE_X509 ders))) = cert_message ctx ders).
    { unfold cert_message. cbn [msg_wire ce_context ce_entries]. unfold certificate_wire, plain, entries_wire. rewrite !map_map. reflexivity. }
    destruct (write_no_space C L (CH_Cert (mk_cert [] ctx (map CE_X509 ders))) c HC Hid H9 (nh_cert _) (encodes_x509 C _ _ _) (fails_x509 C _ _ _)) as (e & c' & Hw & Hs & Htx').
    { now rewrite Hwire. }
    rewrite Hwire in Hs. exists e. split; [exact Hs|]. rewrite He in Hw. apply (Hproc (Err e) c' Hw); [discriminate|exact Htx']. }
  assert (Hdec : forall m, {has_room L m} + {~ has_room L m}) by (intros m; apply le_dec).
  destruct (p_client_cert p) as [[d|d]|] eqn:Ecc.
  - destruct (Hdec (cert_message ctx [d])) as [Hr|Hr].
    + destruct (Hsent [d] eq_refl Hr) as (c2 & Hp & Hcs2 & Hl2 & Htr2 & Hsh2 & Hst2).
      destruct (signature_phase c2 h' client key iv (n + 1)%N (tr_of c) HC Hcs2) as (o & out & Ho & He); [|exact Hst2|reflexivity| |].
      { unfold has_room, cert_message in Hr. rewrite app_length, uint_length in Hr. unfold vec in Hr at 1. rewrite app_length, uint_length in Hr. lia. }
      { intros k K1 K2. apply Hms; congruence. }
      rewrite Htr2 in Ho. exists o, ((ty_handshake, cert_message ctx [d]) :: out). split; [eapply ae_cert; eauto|].
      cbn [protected_records]. eapply ends_step; [discriminate|exact Hp|exact Hl2|exact He].
    + destruct (Hfull [d] eq_refl Hr) as (e & Hs & He). exists (Err e), []. split; [eapply ae_cert_space; eauto|exact He].
  - destruct (write_raw C L c [] ctx d Hid H9) as (o & c' & Hw & Hx & Ho).
    destruct Ho as [(H1 & ->)|(H1 & ->)].
    + exists (Panic PUnimplemented), []. split; [eapply ae_raw; eauto|]. apply (Hproc (Panic PUnimplemented) c' Hw); [discriminate|exact Hx].
    + exists (Err InsufficientSpace), []. split; [eapply ae_raw_space; eauto|]. apply (Hproc (Err InsufficientSpace) c' Hw); [discriminate|exact Hx].
  - destruct (Hdec (cert_message ctx [])) as [Hr|Hr].
    + destruct (Hsent [] eq_refl Hr) as (c2 & Hp & Hcs2 & Hl2 & Htr2 & Hsh2 & Hst2).
      destruct (finish_phase c2 h' client key iv (n + 1)%N (tr_of c) HC H9) as (o & out & Ho & He); [|exact Hst2|reflexivity| |].
      { destruct Hcs2 as (A & B & D). split; [exact A|]. split; [exact B|]. lia. }
      { intros k K1 K2. apply Hms; congruence. }
      rewrite Htr2 in Ho. exists o, ((ty_handshake, cert_message ctx []) :: out). split; [eapply ae_empty; eauto|].
      cbn [protected_records]. eapply ends_step; [discriminate|exact Hp|exact Hl2|exact He].
    + destruct (Hfull [] eq_refl Hr) as (e & Hs & He). exists (Err e), []. split; [eapply ae_empty_space; eauto|exact He].
Qed.

(** ** [open] *)

Lemma answer_open v v0 rbuf wbuf rx tx c0 s c h o evs : crypto_ok C -> cn_new C rbuf wbuf rx tx = Ok c0 -> told p cfg v v0 ->
  goes C p cfg St_ClientHello c0 (hs_new v0) s c h -> ends s c h o evs ->
  exists c', cn_open C p cfg v c0 = (o, c') /\ sent_log c' = log_of (cn_wh c) ++ evs.
Proof.
  intros HC Hnew Htold Hg (c' & Hl & [(h' & Hg' & ->)|(s1 & c1 & h1 & o1 & h' & Hg' & Hs1 & Hp & Ho & ->)]).
  - exists (set_opened c'). split; [|exact Hl].
    eapply open_goes; eauto. eapply goes_trans; eauto.
  - exists c'. split; [|exact Hl].
    destruct (cn_new_idle C rbuf wbuf rx tx c0 Hnew) as (Hid0 & _ & _ & _ & _ & Hrd0 & _).
    assert (Hhost : host_step p cfg v = (Ok tt, v0)).
    { unfold host_step, told in *. destruct (cfg_server_name cfg), (p_has_verifier p); congruence. }
    unfold cn_open. fold (host_step p cfg v). rewrite Hhost. unfold bind at 1, lift at 1.
    assert (Hb0 : between (cn_rd c0)) by (rewrite Hrd0; split; [unfold rd_wf; cbn; lia|reflexivity]).
    rewrite (goes_stops C p cfg (length wbuf) (8 + rx_size (rd_rx (cn_rd c0))) _ _ _ _ _ _ _ _ _ HC Hid0 Hb0 (goes_trans C p cfg _ _ _ _ _ _ _ _ _ Hg Hg') Hs1 Hp Ho).
    + destruct o1; reflexivity || (exfalso; exact (Ho _ eq_refl)).
    + cbn [TermProofs.rank]. lia.
Qed.
End Phases.
