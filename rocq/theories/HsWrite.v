(** * Every record that [write_record] produces, and what is left of the write buffer *)
From Coq Require Import List NArith Arith Bool Lia ZArith.
From Coq.Strings Require Import Byte.
From Coq Require Import ZifyBool ZifyNat ZifyN.
From Verif Require Import Base Buffer Codes Extensions Crypto KeySchedule Config Handshake Record WriteBuffer
  BaseProofs SpecWire WireProofs BufferProofs SpecKeys KeyProofs WriteProofs SpecRecord RecordProofs
  SpecHello HelloProofs PropHello SpecMessages ExtProofs PropCert.
Import ListNotations.

Ltac Zify.zify_post_hook ::= Z.div_mod_to_equations.

Lemma ok_pair_inj {E A B} (a c : A) (b d : B) : Ok (E:=E) (a, b) = Ok (c, d) -> a = c /\ b = d.
Proof. intros H. inversion H. auto. Qed.

(** ** Actions that never succeed *)

Definition never_ok {S E A} (m : M S E A) : Prop := forall s a, fst (m s) <> Ok a.

Lemma never_bind_l {S E A B} (m : M S E A) (f : A -> M S E B) : never_ok m -> never_ok (bind m f).
Proof. intros H s a. unfold bind. specialize (H s). destruct (m s) as [[x|e|p| |] s']; cbn in *; try discriminate. now specialize (H x). Qed.

Lemma never_bind_r {S E A B} (m : M S E A) (f : A -> M S E B) : (forall a, never_ok (f a)) -> never_ok (bind m f).
Proof. intros H s a. unfold bind. destruct (m s) as [[x|e|p| |] s']; cbn in *; try discriminate. apply H. Qed.

Lemma never_for_each {S E T} (l : list T) (f : T -> M S E unit) x : In x l -> never_ok (f x) -> never_ok (for_each l f).
Proof.
  induction l as [|y l IH]; intros Hin Hx; [contradiction|]. cbn [for_each]. destruct Hin as [->|Hin].
  - now apply never_bind_l.
  - apply never_bind_r. intros _. now apply IH.
Qed.

Lemma never_with_u24 {A} (op : W A) : never_ok op -> never_ok (with_u24_length op).
Proof.
  intros H. unfold with_u24_length. apply never_bind_r. intros a. apply never_bind_r. intros [].
  apply never_bind_r. intros st. now apply never_bind_l.
Qed.

(** ** Messages *)

(** The handshake message [h] as it goes on the wire (4, 4.4), the ClientHello excepted. *)
Definition msg_wire (h : client_handshake) : bytes :=
  match h with
  | CH_Cert c => uint 1 11 ++ vec 3 (certificate_wire (ce_context c)
      (plain (map (fun e => match e with CE_X509 d => d | CE_RawPublicKey d => d end) (ce_entries c))))
  | CH_CertVerify v => uint 1 15 ++ vec 3 (uint 2 (sig_scheme_code (cv_scheme v)) ++ vec 2 (cv_sig v))
  | CH_Finished f => uint 1 20 ++ vec 3 (f_verify f)
  | CH_Hello _ => []
  end.

Definition not_hello (h : client_handshake) : Prop := match h with CH_Hello _ => False | _ => True end.

Lemma entries_split l : (exists ders, l = map CE_X509 ders) \/ (exists d, In (CE_RawPublicKey d) l).
Proof.
  induction l as [|[d|d] l IH].
  - left. now exists [].
  - destruct IH as [[ders ->]|[x Hx]]; [left; now exists (d :: ders)|right; exists x; now right].
  - right. exists d. now left.
Qed.

Lemma encodes_msg C h : not_hello h ->
  encodes (enc_client_handshake C h) (msg_wire h) tt \/ never_ok (enc_client_handshake C h).
Proof.
  intros Hn. unfold enc_client_handshake. destruct h as [c|v|x|f]; [| |contradiction|].
  - destruct (entries_split (ce_entries c)) as [[ders E]|[d Hd]].
    + left. cbn [client_handshake_type msg_wire]. eapply encodes_bind; [apply encodes_enc_err, encodes_uint1|].
      apply encodes_vec3. destruct c as [raw ctx es]. cbn [ce_entries ce_context] in *. subst es.
      rewrite map_map, map_id. apply encodes_cert.
    + right. apply never_bind_r. intros []. apply never_with_u24. unfold enc_certificate.
      apply never_bind_r. intros []. apply never_with_u24. eapply never_for_each; [exact Hd|].
      unfold enc_cert_entry. apply never_bind_l. intros s a. discriminate.
  - left. cbn [client_handshake_type msg_wire]. eapply encodes_bind; [apply encodes_enc_err, encodes_uint1|].
    apply encodes_vec3. unfold enc_certificate_verify. eapply encodes_bind; [apply encodes_uint2|].
    apply encodes_vec2, encodes_extend.
  - left. cbn [client_handshake_type msg_wire]. eapply encodes_bind; [apply encodes_enc_err, encodes_uint1|].
    apply encodes_vec3. apply encodes_enc_err, encodes_extend.
Qed.

Definition alert_wire (l : alert_level) (d : alert_desc) : bytes := uint 1 (alert_level_code l) ++ uint 1 (alert_desc_code d).

Lemma encodes_alert l d : encodes (enc_alert l d) (alert_wire l d) tt.
Proof. unfold enc_alert, alert_wire. eapply encodes_bind; apply encodes_enc_err, encodes_uint1. Qed.

(** ** No room for the trailer *)

Lemma close_protected_err C k h pl R : crypto_ok C -> length (k_iv k) = iv_len C ->
  rh_is_encrypted h = true -> length R < 17 -> exists e w,
  wb_close_record C k (mk_wbuf (hdr5 h 0 ++ pl ++ R) (5 + length pl) (Some h)) = (Err e, w).
Proof.
  intros HC Hiv He HR.
  unfold wb_close_record, bind at 1, get at 1. cbn [wb_hdr].
  unfold bind at 1, lift at 1, unwrap.
  unfold bind at 1, wb_set_hdr, modify. cbn [wb_buf wb_pos]. rewrite He. cbn [negb].
  unfold bind at 1.
  set (op := bind _ _).
  assert (Hop : exists e c, op (mk_cbuf (hdr5 h 0 ++ pl ++ R) 0 (5 + length pl)) = (Err e, c)).
  { unfold op, bind at 1.
    destruct (encodes_enc_err _ _ _ (encodes_push (b8 (content_type_code (rh_trailer_content_type h))))
                 (hdr5 h 0 ++ pl) R 0 (5 + length pl)) as [Hp Hp'].
    { rewrite app_length, hdr5_length. lia. }
    rewrite <- app_assoc in Hp, Hp'. cbn [length] in Hp, Hp'.
    destruct (le_lt_dec 1 (length R)) as [H1|H1].
    - rewrite Hp by lia. unfold bind at 1, cb_offset at 1. cbn [cb_len cb_off cb_buf]. unfold HEADER_LEN.
      rewrite usize_sub_ok by lia.
      unfold bind at 1. unfold encrypt, bind at 1, lift at 1.
      unfold kstate_nonce. rewrite get_nonce_spec by assumption. unfold bind at 1, get at 1.
      unfold cb_capacity. cbn [cb_len cb_buf]. rewrite (ok_tag_len C HC).
      set (pt := pl ++ [b8 (content_type_code (rh_trailer_content_type h))]).
      assert (Hpt : length pt = length pl + 1) by (unfold pt; rewrite app_length; reflexivity).
      destruct (_ <? _) eqn:E; [do 2 eexists; reflexivity|].
      rewrite <- app_assoc.
      replace (5 + length pl + 1 + 0 - 5) with (length pt) by lia.
      replace (pl ++ [b8 (content_type_code (rh_trailer_content_type h))] ++ skipn 1 R) with (pt ++ skipn 1 R)
        by (unfold pt; now rewrite <- app_assoc).
      unfold bind at 1, lift at 1, cb_as_slice. cbn [cb_len cb_buf cb_off].
      rewrite slice_rng_ok by (rewrite ?app_length, ?hdr5_length; lia).
      destruct (c_seal _ _ _ _ _) as [ct tag] eqn:Es.
      assert (Hl : length ct = length pt /\ length tag = 16).
      { pose proof (ok_seal_len C HC (k_key k) (rfc_nonce (k_iv k) (k_counter k))
          ([b8 (content_type_code CT_ApplicationData); x03; x03] ++ be16 (N.of_nat (length pt + 16) mod 65536))
          (sub (hdr5 h 0 ++ pt ++ skipn 1 R) 5 (5 + length pt - 5))) as [H2 H3].
        rewrite Es in H2, H3. cbn [fst snd] in *. rewrite (ok_tag_len C HC) in H3. split; [|exact H3].
        rewrite H2. unfold sub. rewrite firstn_length, skipn_length, !app_length, hdr5_length. lia. }
      destruct Hl as [Hct Htag].
      unfold bind at 1, lift at 1. rewrite set_rng_ok by (rewrite ?app_length, ?hdr5_length; lia).
      unfold bind at 1, put. unfold map_err, cb_extend, cb_space, cb_capacity. cbn [cb_buf cb_off cb_len].
      set (b := splice _ _ _).
      assert (Hb : length b = 5 + length pt + length (skipn 1 R)).
      { unfold b. rewrite splice_length by (rewrite ?app_length, ?hdr5_length; lia). rewrite !app_length, hdr5_length. lia. }
      rewrite usize_sub_ok by lia. rewrite Hb, Htag, skipn_length.
      rewrite (proj2 (Nat.ltb_lt _ _)) by lia. do 2 eexists. reflexivity.
    - destruct Hp' as (e & R' & len' & -> & _); [lia|]. do 2 eexists. reflexivity. }
  destruct Hop as (e & c & Hop). rewrite (with_buffer_err _ _ _ _ _ _ Hop). do 2 eexists. reflexivity.
Qed.
Lemma close_protected_no_room C k h pl R : crypto_ok C -> length (k_iv k) = iv_len C ->
  rh_is_encrypted h = true -> length R < 17 -> forall s,
  fst (wb_close_record C k (mk_wbuf (hdr5 h 0 ++ pl ++ R) (5 + length pl) (Some h))) <> Ok s.
Proof. intros HC Hiv He HR s. destruct (close_protected_err C k h pl R HC Hiv He HR) as (e & w & E). rewrite E. discriminate. Qed.

(** ** What a successful [write_record] produces *)

(** The ClientHello message, as in C06 and C12. *)
Definition hello_msg (C : crypto) (h : client_hello) (w : wks) (tr msg : bytes) : Prop :=
  match cfg_psk (ch_config h) with
  | None => msg = hello_image C h []
  | Some (_, ids) => exists bk v, w_binder w = Some bk /\
      rfc_verify_data C bk (tr ++ hello_prefix C h ids ((1 + hash_len C) * length ids)) = Some v /\
      msg = hello_image C h (concat (map (vec 1) (repeat v (length ids))))
  end.

(** The payload of the record [r]. *)
Definition payload_of (C : crypto) (r : client_record) (w : wks) (tr pl : bytes) : Prop :=
  match r with
  | CR_Handshake (CH_Hello h) _ => hello_msg C h w tr pl
  | CR_Handshake m _ => pl = msg_wire m
  | CR_Alert l d _ => pl = alert_wire l d
  end.

(** No ClientHello is ever sent protected. *)
Definition sendable (r : client_record) : Prop :=
  match r with CR_Handshake (CH_Hello _) e => e = false | _ => True end.

Definition rec_type (r : client_record) : byte :=
  match r with CR_Handshake _ _ => ty_handshake | CR_Alert _ _ _ => ty_alert end.

(** The type in the header of an unprotected record. *)
Definition plain_type (r : client_record) : N :=
  match r with CR_Handshake _ _ => 22 | CR_Alert _ _ _ => 20 end.

(** The record on the wire. *)
Definition rec_wire (C : crypto) (r : client_record) (k : kstate) (pl : bytes) : bytes :=
  if rh_is_encrypted (cr_header r)
  then rfc_record C (k_key k) (k_iv k) (k_counter k) (rec_type r) pl 0
  else uint 1 (plain_type r) ++ uint 2 0x0301 ++ vec 2 pl.

Lemma plain_wire r n pl : rh_is_encrypted (cr_header r) = false -> n = length pl ->
  hdr5 (cr_header r) n ++ pl = uint 1 (plain_type r) ++ uint 2 0x0301 ++ vec 2 pl.
Proof.
  intros He ->. unfold hdr5, vec.
  replace (be16 (N.of_nat (length pl))) with (uint 2 (N.of_nat (length pl))) by apply uint_be16.
  replace (hdr3 (cr_header r)) with (uint 1 (plain_type r) ++ uint 2 0x0301); [now rewrite <- !app_assoc|].
  destruct r as [h []|l d []]; try discriminate; reflexivity.
Qed.

Lemma trailer_type r : byte_of (content_type_code (rh_trailer_content_type (cr_header r))) = rec_type r.
Proof. now destruct r. Qed.

(** Anything but the ClientHello. *)
Lemma wr_rec_gen C r w tr pl tr1 b s tr' b' : crypto_ok C -> length (k_iv (w_state w)) = iv_len C ->
  wb_pos b = 0 -> wb_hdr b = None ->
  encodes (cr_encode_payload C r) pl tt ->
  cr_finish C r w pl tr = Ok (pl, tr1) ->
  wb_write_record C r w tr b = (Ok (s, tr'), b') ->
  s = rec_wire C r (w_state w) pl /\ tr' = tr1 /\ length (wb_buf b') = length (wb_buf b) /\
  wb_pos b' = 0 /\ wb_hdr b' = None /\ length s <= length (wb_buf b).
Proof.
  intros HC Hiv Hp Hh Henc Hfin Hw. rewrite (wbuf_eta b), Hp, Hh in Hw. set (buf := wb_buf b) in *.
  destruct (le_lt_dec (5 + length pl) (length buf)) as [Hfit|Hfit].
  2:{ destruct (write_record_no_room C r w tr pl buf Henc Hfit) as (e & W' & He & _). rewrite He in Hw. discriminate. }
  unfold rec_wire. destruct (rh_is_encrypted (cr_header r)) eqn:Ee.
  - destruct (le_lt_dec (5 + length pl + 17) (length buf)) as [Hfit2|Hfit2].
    + rewrite (write_record_protected C r w tr pl pl tr1 buf HC Hiv Henc Hfin eq_refl Ee Hfit2) in Hw.
      apply pair_equal_spec in Hw as [Hw <-]. apply ok_pair_inj in Hw as [<- <-]. cbn [wb_buf wb_pos wb_hdr].
      rewrite protected_record_rfc, trailer_type by assumption.
      repeat split; rewrite ?app_length, rfc_record_length, ?skipn_length by assumption; unfold buf in *; lia.
    + exfalso. unfold wb_write_record, bind at 1, get at 1 in Hw. cbn [wb_hdr] in Hw.
      unfold bind at 1 in Hw. rewrite start_record_ok in Hw by lia.
      unfold bind at 1 in Hw.
      erewrite payload_stage in Hw; [|exact Henc|exact Hfin|reflexivity|rewrite skipn_length; lia].
      unfold bind at 1 in Hw. 
      destruct (wb_close_record _ _ _) as [o x] eqn:Eo. destruct o as [s0| | | |]; try discriminate.
      apply (f_equal fst) in Eo. revert Eo. apply close_protected_no_room; auto.
      rewrite !skipn_length. lia.
  - rewrite (write_record_plain C r w tr pl pl tr1 buf Henc Hfin eq_refl Ee Hfit) in Hw.
    apply pair_equal_spec in Hw as [Hw <-]. apply ok_pair_inj in Hw as [<- <-]. cbn [wb_buf wb_pos wb_hdr]. rewrite (plain_wire r (length pl) pl) by auto.
    repeat split; rewrite !app_length, ?hdr5_length, ?skipn_length, ?vec_length, ?uint_length; unfold buf in *; lia.
Qed.

Lemma wr_never C m e w tr b s b' : never_ok (enc_client_handshake C m) -> wb_hdr b = None ->
  wb_write_record C (CR_Handshake m e) w tr b <> (Ok s, b').
Proof.
  intros Hnev Hh Hw. unfold wb_write_record, bind at 1, get at 1 in Hw. rewrite Hh in Hw.
  unfold bind at 1 in Hw. destruct (wb_start_record _ _) as [[[]| | | |] b1]; try discriminate.
  unfold bind at 1 in Hw.
  assert (Hn2 : never_ok (with_buffer (cb_forward ;;; cr_encode_payload C (CR_Handshake m e) ;;;
            tr' <- wb_finish_payload C (CR_Handshake m e) w tr ;; cb_rewind ;;; ret tr'))).
  { intros st a. unfold with_buffer.
    assert (Hn3 : never_ok (cb_forward ;;; cr_encode_payload C (CR_Handshake m e) ;;;
            tr' <- wb_finish_payload C (CR_Handshake m e) w tr ;; cb_rewind ;;; ret tr')).
    { apply never_bind_r. intros []. apply never_bind_l. exact Hnev. }
    specialize (Hn3 (cb_wrap_with_pos (wb_buf st) (wb_pos st))).
    match type of Hn3 with context [fst ?X] => destruct X as [o c] end. cbn [fst] in Hn3. destruct o; try discriminate.
    exfalso. now apply (Hn3 a0). }
  specialize (Hn2 b1). destruct (with_buffer _ b1) as [o b2]. cbn [fst] in Hn2. destruct o; try discriminate.
  now apply (Hn2 a).
Qed.

(** A certificate list with a raw public key in it cannot be written. *)
Lemma raw_never C raw ctx es d : In (CE_RawPublicKey d) es -> never_ok (enc_client_handshake C (CH_Cert (mk_cert raw ctx es))).
Proof.
  intros Hd. apply never_bind_r. intros []. apply never_with_u24. unfold enc_certificate.
  apply never_bind_r. intros []. apply never_with_u24. eapply never_for_each; [exact Hd|].
  unfold enc_cert_entry. apply never_bind_l. intros s a. discriminate.
Qed.

Lemma wr_rec_ok C r w tr b s tr' b' : crypto_ok C -> length (k_iv (w_state w)) = iv_len C ->
  wb_pos b = 0 -> wb_hdr b = None -> sendable r ->
  (forall h e, r = CR_Handshake (CH_Hello h) e -> cfg_psk (ch_config h) <> None -> exists bk, w_binder w = Some bk) ->
  wb_write_record C r w tr b = (Ok (s, tr'), b') ->
  exists pl, payload_of C r w tr pl /\ s = rec_wire C r (w_state w) pl /\
    tr' = (match r with CR_Handshake _ _ => tr ++ pl | CR_Alert _ _ _ => tr end) /\
    length (wb_buf b') = length (wb_buf b) /\ wb_pos b' = 0 /\ wb_hdr b' = None /\ length s <= length (wb_buf b).
Proof.
  intros HC Hiv Hp Hh Hsd Hbk Hw.
  assert (Hgen : forall pl, payload_of C r w tr pl -> encodes (cr_encode_payload C r) pl tt ->
    cr_finish C r w pl tr = Ok (pl, match r with CR_Handshake _ _ => tr ++ pl | CR_Alert _ _ _ => tr end) ->
    exists pl, payload_of C r w tr pl /\ s = rec_wire C r (w_state w) pl /\
    tr' = (match r with CR_Handshake _ _ => tr ++ pl | CR_Alert _ _ _ => tr end) /\
    length (wb_buf b') = length (wb_buf b) /\ wb_pos b' = 0 /\ wb_hdr b' = None /\ length s <= length (wb_buf b)).
  { intros pl Hpl Henc Hfin. exists pl. split; [exact Hpl|]. eapply wr_rec_gen; eauto. }
  destruct r as [m e|l d e].
  2:{ eapply Hgen; [reflexivity|apply encodes_alert|reflexivity]. }
  assert (Hm : not_hello m -> exists pl, payload_of C (CR_Handshake m e) w tr pl /\ s = rec_wire C (CR_Handshake m e) (w_state w) pl /\
    tr' = tr ++ pl /\
    length (wb_buf b') = length (wb_buf b) /\ wb_pos b' = 0 /\ wb_hdr b' = None /\ length s <= length (wb_buf b)).
  { intros Hn. destruct (encodes_msg C m Hn) as [Henc|Hnev].
    - apply (Hgen (msg_wire m)); [destruct m; try reflexivity; contradiction|exact Henc|].
      destruct e; [reflexivity|]. cbn [cr_finish]. destruct m; try contradiction; reflexivity.
    - exfalso. exact (wr_never C m e w tr b _ b' Hnev Hh Hw). }
  destruct m as [c|v|h|f]; try (now apply Hm). clear Hm Hgen. cbn in Hsd. subst e.
  assert (Hl : hash_len C < 256) by (destruct (ok_sizes C HC); lia).
  rewrite (wbuf_eta b), Hp, Hh in Hw.
  assert (Hb : exists bk, cfg_psk (ch_config h) <> None -> w_binder w = Some bk).
  { specialize (Hbk h false eq_refl). destruct (cfg_psk (ch_config h)); [|exists []; intros []; reflexivity].
    destruct Hbk as [bk Hbk]; [discriminate|]. now exists bk. }
  destruct Hb as [bk Hb].
  destruct (hello_record C h w tr bk (wb_buf b) HC Hl Hb) as (msg & binders & Hm & _ & _ & Hok & Herr).
  destruct (le_lt_dec (5 + length msg) (length (wb_buf b))) as [Hfit|Hfit].
  2:{ destruct (Herr Hfit) as (e & w' & E & _). rewrite E in Hw. discriminate. }
  rewrite (Hok Hfit) in Hw. apply pair_equal_spec in Hw as [Hw <-]. apply ok_pair_inj in Hw as [<- <-]. exists msg. split.
  { unfold payload_of, hello_msg. destruct (cfg_psk (ch_config h)) as [[k ids]|].
    - destruct Hm as (v & Hv & _ & -> & Hm). exists bk, v. split; [apply Hb; discriminate|]. auto.
    - apply Hm. }
  split; [reflexivity|]. split; [reflexivity|]. cbn [wb_buf wb_pos wb_hdr].
  split; [|split; [reflexivity|split; [reflexivity|]]]; rewrite !app_length, vec_length, ?skipn_length, !uint_length; lia.
Qed.
