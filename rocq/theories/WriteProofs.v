(** * Building one outgoing record *)
From Coq Require Import List NArith Arith Bool Lia ZArith.
From Coq.Strings Require Import Byte.
From Coq Require Import ZifyBool ZifyNat ZifyN.
From Verif Require Import Base Buffer Codes Extensions Crypto KeySchedule Config Handshake Record WriteBuffer
  BaseProofs SpecWire WireProofs BufferProofs SpecKeys KeyProofs.
Import ListNotations.

Ltac Zify.zify_post_hook ::= Z.div_mod_to_equations.

(** The first three bytes of a record. *)
Definition hdr3 (h : rec_header) : bytes :=
  b8 (content_type_code (rh_header_content_type h)) :: rh_version h.

Lemma hdr3_length h : length (hdr3 h) = 3.
Proof. destruct h as [[]|[]|]; reflexivity. Qed.

(** The record header: type, version, length. *)
Definition hdr5 (h : rec_header) (n : nat) : bytes := hdr3 h ++ be16 (N.of_nat n).

Lemma hdr5_length h n : length (hdr5 h n) = 5.
Proof. unfold hdr5. now rewrite app_length, hdr3_length, be16_length. Qed.

Lemma encodes_rh h : encodes (rh_encode h) (hdr3 h) tt.
Proof.
  unfold rh_encode, hdr3.
  change (?a :: ?b) with ([a] ++ b).
  eapply encodes_bind; [apply encodes_enc_err, encodes_push|apply encodes_enc_err, encodes_extend].
Qed.

Lemma encodes_rh5 h : encodes (rh_encode h ;;; cb_push_u16 0) (hdr5 h 0) tt.
Proof.
  unfold hdr5. eapply encodes_bind; [apply encodes_rh|]. apply encodes_u16.
Qed.

Lemma rewind_ok b off len : cb_rewind (mk_cbuf b off len) = (Ok tt, mk_cbuf b 0 (len + off)).
Proof. unfold cb_rewind, cb_offset. cbn [cb_len cb_off cb_buf]. rewrite usize_sub_ok by lia. f_equal. f_equal. lia. Qed.

Lemma forward_ok b len : cb_forward (mk_cbuf b 0 len) = (Ok tt, mk_cbuf b len 0).
Proof. unfold cb_forward, cb_offset. cbn [cb_len cb_off cb_buf]. rewrite usize_sub_ok by lia. f_equal. f_equal. lia. Qed.

Lemma with_buffer_ok {A} (op : W A) buf pos h a buf' off' pos' :
  op (mk_cbuf buf 0 pos) = (Ok a, mk_cbuf buf' off' pos') ->
  with_buffer op (mk_wbuf buf pos h) = (Ok a, mk_wbuf buf' pos' h).
Proof. intros H. unfold with_buffer, cb_wrap_with_pos. cbn [wb_buf wb_pos wb_hdr]. now rewrite H. Qed.

Lemma with_buffer_err {A} (op : W A) buf pos h e c :
  op (mk_cbuf buf 0 pos) = (Err e, c) ->
  with_buffer op (mk_wbuf buf pos h) = (Err e, mk_wbuf (cb_buf c) pos h).
Proof. intros H. unfold with_buffer, cb_wrap_with_pos. cbn [wb_buf wb_pos wb_hdr]. now rewrite H. Qed.

(** [start_record] on an empty buffer. *)
Lemma start_record_ok h buf : 5 <= length buf ->
  wb_start_record h (mk_wbuf buf 0 None)
  = (Ok tt, mk_wbuf (hdr5 h 0 ++ skipn 5 buf) 5 (Some h)).
Proof.
  intros H. unfold wb_start_record, bind at 1, get at 1. cbn [wb_hdr].
  unfold bind at 1, wb_set_hdr, modify. cbn [wb_buf wb_pos].
  eapply with_buffer_ok.
  destruct (encodes_rh5 h [] buf 0 0 eq_refl) as [He _]. rewrite hdr5_length in He. cbn [app Nat.add] in He.
  specialize (He H). unfold bind in *.
  destruct (rh_encode h (mk_cbuf buf 0 0)) as [[[]| | | |] c1]; inversion He as [He1].
  destruct (cb_push_u16 0 c1) as [[[]| | | |] c2]; inversion He1; subst.
  apply rewind_ok.
Qed.

Lemma start_record_err h buf : length buf < 5 ->
  exists e w, wb_start_record h (mk_wbuf buf 0 None) = (Err e, w) /\ space_error e /\
    length (wb_buf w) = length buf /\ wb_pos w = 0 /\ wb_hdr w = Some h.
Proof.
  intros H. destruct (encodes_rh5 h [] buf 0 0 eq_refl) as [_ He]. rewrite hdr5_length in He. cbn [app] in He.
  destruct (He H) as (e & R' & len' & He' & Hs & HR & _).
  exists e, (mk_wbuf R' 0 (Some h)). split; [|auto].
  unfold wb_start_record, bind at 1, get at 1. cbn [wb_hdr].
  unfold bind at 1, wb_set_hdr, modify. cbn [wb_buf wb_pos].
  erewrite with_buffer_err; [|unfold bind in *].
  2:{ destruct (rh_encode h (mk_cbuf buf 0 0)) as [[[]| | | |] c1]; try discriminate; [|inversion He'; subst; reflexivity].
      destruct (cb_push_u16 0 c1) as [[[]| | | |] c2]; inversion He'; subst. reflexivity. }
  reflexivity.
Qed.

(** Bytes 3 and 4 of a buffer that starts with a 5-byte header. *)
Lemma set_length (a b c x y : byte) R n k h (w : wbuf) :
  wb_buf w = a :: b :: c :: x :: y :: R -> wb_pos w = 5 + n -> n <= length R -> wb_hdr w = h ->
  ((k <- lift (usize_sub (wb_pos w) HEADER_LEN) ;;
   let l := be16 (N.of_nat k mod 65536) in
   b3 <- lift (set_index (wb_buf w) 3 (nth 0 l x00)) ;;
   b4 <- lift (set_index b3 4 (nth 1 l x00)) ;;
   s <- lift (slice_rng b4 0 (wb_pos w)) ;;
   put (mk_wbuf b4 0 None) ;;;
   ret s) : M wbuf tls_error bytes) k
  = (Ok ([a; b; c] ++ be16 (N.of_nat n) ++ firstn n R),
     mk_wbuf ([a; b; c] ++ be16 (N.of_nat n) ++ R) 0 None).
Proof.
  intros Hb Hp Hn Hh. unfold HEADER_LEN. rewrite Hp, Hb.
  rewrite usize_sub_ok by lia. unfold bind at 1, lift at 1.
  replace (5 + n - 5) with n by lia. rewrite be16_mod.
  set (L := be16 (N.of_nat n)).
  assert (HL : L = [nth 0 L x00; nth 1 L x00]) by reflexivity.
  cbv zeta. unfold bind at 1, lift at 1. rewrite set_index_ok by (cbn; lia).
  change (splice (a :: b :: c :: x :: y :: R) 3 [nth 0 L x00]) with (a :: b :: c :: nth 0 L x00 :: y :: R).
  unfold bind at 1, lift at 1. rewrite set_index_ok by (cbn; lia).
  change (splice (a :: b :: c :: nth 0 L x00 :: y :: R) 4 [nth 1 L x00])
    with ([a; b; c] ++ [nth 0 L x00; nth 1 L x00] ++ R). rewrite <- HL.
  unfold bind at 1, lift at 1. rewrite slice_rng_ok; [|lia|].
  2:{ rewrite !app_length. unfold L. rewrite be16_length. cbn [length]. lia. }
  unfold bind, put, ret. rewrite !Nat.sub_0_r. reflexivity.
Qed.

(** [close_record] of an unprotected record. *)
Lemma close_plain C k h pl R : rh_is_encrypted h = false ->
  wb_close_record C k (mk_wbuf (hdr5 h 0 ++ pl ++ R) (5 + length pl) (Some h))
  = (Ok (hdr5 h (length pl) ++ pl), mk_wbuf (hdr5 h (length pl) ++ pl ++ R) 0 None).
Proof.
  intros He. unfold wb_close_record, bind at 1, get at 1. cbn [wb_hdr].
  unfold bind at 1, lift at 1, unwrap.
  unfold bind at 1, wb_set_hdr, modify. cbn [wb_buf wb_pos]. rewrite He. cbn [negb].
  unfold bind at 1. rewrite (with_buffer_ok _ _ _ None tt (hdr5 h 0 ++ pl ++ R) 0 (5 + length pl)) by reflexivity.
  unfold bind at 1, get at 1.
  unfold hdr5. pose proof (hdr3_length h) as H3. destruct (hdr3 h) as [|a [|b [|c [|]]]]; try discriminate.
  rewrite (set_length a b c x00 x00 (pl ++ R) (length pl) _ None); cbn [wb_buf wb_pos wb_hdr]; auto.
  2:{ rewrite app_length. lia. }
  rewrite firstn_app, firstn_all, Nat.sub_diag. cbn [firstn]. rewrite app_nil_r, <- !app_assoc. reflexivity.
Qed.

Lemma bytes_sealed_ad len : [b8 (content_type_code CT_ApplicationData); x03; x03] ++ be16 len
  = uint 1 23 ++ uint 2 0x0303 ++ uint 2 len.
Proof. replace (uint 2 len) with (be16 len) by (symmetry; apply uint_be16). reflexivity. Qed.

(** [close_record] of a protected record: content, type, sealed with the header as
    associated data. *)
Definition sealed (C : crypto) (k : kstate) (pt : bytes) : bytes * bytes :=
  c_seal C (k_key k) (rfc_nonce (k_iv k) (k_counter k))
    (uint 1 23 ++ uint 2 0x0303 ++ uint 2 (N.of_nat (length pt + tag_len C))) pt.

Lemma sealed_length C k pt : crypto_ok C ->
  length (fst (sealed C k pt)) = length pt /\ length (snd (sealed C k pt)) = 16.
Proof. intros HC. unfold sealed. pose proof (ok_tag_len C HC) as E. split; [|rewrite <- E]; apply (ok_seal_len C HC). Qed.

(** The record on the wire: header, ciphertext, tag. *)
Definition protected_record (C : crypto) (k : kstate) (ct : content_type) (content : bytes) : bytes :=
  let pt := content ++ [b8 (content_type_code ct)] in
  uint 1 23 ++ uint 2 0x0303 ++ vec 2 (fst (sealed C k pt) ++ snd (sealed C k pt)).

Lemma protected_record_length C k ct content : crypto_ok C ->
  length (protected_record C k ct content) = 5 + length content + 1 + 16.
Proof.
  intros HC. unfold protected_record. rewrite !app_length, vec_length, app_length, !uint_length.
  destruct (sealed_length C k (content ++ [b8 (content_type_code ct)]) HC) as [-> ->].
  rewrite app_length. cbn [length]. lia.
Qed.

Lemma encrypted_hdr3 h : rh_is_encrypted h = true -> hdr3 h = uint 1 23 ++ uint 2 0x0303.
Proof. destruct h as [[]|[]|]; try discriminate; reflexivity. Qed.

Lemma encrypt_ok C k Pr pt R : crypto_ok C -> length (k_iv k) = iv_len C -> length Pr = 5 ->
  16 <= length R ->
  encrypt C k (mk_cbuf (Pr ++ pt ++ R) 5 (length pt))
  = (Ok tt, mk_cbuf (Pr ++ fst (sealed C k pt) ++ snd (sealed C k pt) ++ skipn 16 R) 5 (length pt + 16)).
Proof.
  intros HC Hiv HP HR. unfold encrypt.
  unfold bind at 1, lift at 1, kstate_nonce. rewrite get_nonce_spec by assumption.
  unfold bind at 1, get at 1. cbn [cb_len cb_off cb_buf]. unfold cb_capacity. cbn [cb_buf].
  rewrite (proj2 (Nat.ltb_ge _ _)).
  2:{ rewrite !app_length, (ok_tag_len C HC). lia. }
  rewrite be16_mod, bytes_sealed_ad.
  unfold bind at 1, lift at 1, cb_as_slice. cbn [cb_len cb_off cb_buf].
  rewrite slice_rng_ok by (rewrite ?app_length; lia).
  replace (sub (Pr ++ pt ++ R) 5 (5 + length pt - 5)) with pt.
  2:{ unfold sub. rewrite skipn_app, HP, Nat.sub_diag. rewrite skipn_all2 by lia. cbn [skipn app].
      replace (5 + length pt - 5) with (length pt) by lia.
      rewrite firstn_app, firstn_all, Nat.sub_diag. cbn [firstn]. now rewrite app_nil_r. }
  fold (sealed C k pt). destruct (sealed_length C k pt HC) as [Hc Ht].
  destruct (sealed C k pt) as [ct tag]. cbn [fst snd] in *.
  unfold bind at 1, lift at 1. rewrite set_rng_ok by (rewrite !app_length; lia).
  rewrite <- HP at 1. rewrite splice_at by (rewrite app_length; lia).
  rewrite Hc. rewrite skipn_app, skipn_all, Nat.sub_diag. cbn [skipn app].
  unfold bind at 1, put at 1. unfold map_err.
  destruct (encodes_extend tag (Pr ++ ct) R 5 (length pt)) as [He _].
  { rewrite app_length. lia. }
  rewrite <- app_assoc in He. rewrite He by lia. rewrite Ht, <- !app_assoc. reflexivity.
Qed.

Lemma close_protected C k h pl R : crypto_ok C -> length (k_iv k) = iv_len C ->
  rh_is_encrypted h = true -> 17 <= length R ->
  wb_close_record C k (mk_wbuf (hdr5 h 0 ++ pl ++ R) (5 + length pl) (Some h))
  = (Ok (protected_record C k (rh_trailer_content_type h) pl),
     mk_wbuf (protected_record C k (rh_trailer_content_type h) pl ++ skipn 17 R) 0 None).
Proof.
  intros HC Hiv He HR. set (pt := pl ++ [b8 (content_type_code (rh_trailer_content_type h))]).
  assert (Hpt : length pt = length pl + 1) by (unfold pt; rewrite app_length; reflexivity).
  destruct (sealed_length C k pt HC) as [Hc Ht].
  unfold wb_close_record, bind at 1, get at 1. cbn [wb_hdr].
  unfold bind at 1, lift at 1, unwrap.
  unfold bind at 1, wb_set_hdr, modify. cbn [wb_buf wb_pos]. rewrite He. cbn [negb].
  unfold bind at 1.
  rewrite (with_buffer_ok _ _ _ None tt
     (hdr5 h 0 ++ fst (sealed C k pt) ++ snd (sealed C k pt) ++ skipn 17 R) 0 (5 + (length pl + 17))).
  2:{ unfold bind at 1.
      destruct (encodes_enc_err _ _ _ (encodes_push (b8 (content_type_code (rh_trailer_content_type h))))
                 (hdr5 h 0 ++ pl) R 0 (5 + length pl)) as [Hp _].
      { rewrite app_length, hdr5_length. lia. }
      rewrite <- app_assoc in Hp. rewrite Hp by (cbn [length]; lia). rewrite <- app_assoc. cbn [length].
      unfold bind at 1, cb_offset at 1. cbn [cb_len cb_off cb_buf]. unfold HEADER_LEN.
      rewrite usize_sub_ok by lia.
      replace (5 + length pl + 1 + 0 - 5) with (length pt) by lia.
      replace (pl ++ [b8 (content_type_code (rh_trailer_content_type h))] ++ skipn 1 R) with (pt ++ skipn 1 R)
        by (unfold pt; now rewrite <- app_assoc).
      unfold bind at 1. rewrite encrypt_ok; auto; [|apply hdr5_length|rewrite skipn_length; lia].
      rewrite rewind_ok, skipn_skipn. f_equal. f_equal. lia. }
  unfold bind at 1, get at 1.
  unfold hdr5, protected_record. fold pt. rewrite (encrypted_hdr3 h He).
  change (uint 1 23 ++ uint 2 0x0303) with [x17; x03; x03].
  rewrite (set_length x17 x03 x03 x00 x00 (fst (sealed C k pt) ++ snd (sealed C k pt) ++ skipn 17 R)
             (length pl + 17) _ None); cbn [wb_buf wb_pos wb_hdr]; auto.
  2:{ rewrite !app_length, Hc, Ht. lia. }
  replace (uint 1 23 ++ uint 2 0x0303 ++ vec 2 (fst (sealed C k pt) ++ snd (sealed C k pt)))
    with ([x17; x03; x03] ++ be16 (N.of_nat (length pl + 17)) ++ fst (sealed C k pt) ++ snd (sealed C k pt)).
  2:{ unfold vec. rewrite app_length, Hc, Ht.
      replace (length pt + 16) with (length pl + 17) by lia.
      replace (uint 2 (N.of_nat (length pl + 17))) with (be16 (N.of_nat (length pl + 17)))
        by (symmetry; apply uint_be16). reflexivity. }
  rewrite (app_assoc (fst _)).
  replace (length pl + 17) with (length (fst (sealed C k pt) ++ snd (sealed C k pt))) at 2
    by (rewrite app_length; lia).
  rewrite firstn_app, firstn_all, Nat.sub_diag. cbn [firstn]. rewrite app_nil_r, <- !app_assoc. reflexivity.
Qed.

Lemma wbuf_eta w : w = mk_wbuf (wb_buf w) (wb_pos w) (wb_hdr w).
Proof. now destruct w. Qed.

(** The payload stage of [write_record]: from the started record to the finished payload. *)
Lemma payload_stage C r w tr h pl pl' tr' R :
  encodes (cr_encode_payload C r) pl tt ->
  cr_finish C r w pl tr = Ok (pl', tr') -> length pl' = length pl -> length pl <= length R ->
  with_buffer
    (cb_forward ;;; cr_encode_payload C r ;;; tr' <- wb_finish_payload C r w tr ;; cb_rewind ;;; ret tr')
    (mk_wbuf (hdr5 h 0 ++ R) 5 (Some h))
  = (Ok tr', mk_wbuf (hdr5 h 0 ++ pl' ++ skipn (length pl) R) (5 + length pl) (Some h)).
Proof.
  intros Henc Hfin Hlen Hfit. eapply with_buffer_ok.
  unfold bind at 1. rewrite forward_ok.
  destruct (Henc (hdr5 h 0) R 5 0) as [He _]; [now rewrite hdr5_length|].
  unfold bind at 1. rewrite He by assumption. cbn [Nat.add].
  unfold bind at 1, wb_finish_payload, bind at 1, get at 1.
  unfold bind at 1, lift at 1, cb_as_slice. cbn [cb_len cb_off cb_buf].
  rewrite slice_rng_ok by (rewrite ?app_length, ?hdr5_length, ?skipn_length; lia).
  replace (sub (hdr5 h 0 ++ pl ++ skipn (length pl) R) 5 (5 + length pl - 5)) with pl.
  2:{ unfold sub. rewrite skipn_app, hdr5_length, Nat.sub_diag.
      rewrite skipn_all2 by (rewrite hdr5_length; lia). cbn [skipn app].
      replace (5 + length pl - 5) with (length pl) by lia.
      rewrite firstn_app, firstn_all, Nat.sub_diag. cbn [firstn]. now rewrite app_nil_r. }
  unfold bind at 1, lift at 1. rewrite Hfin.
  unfold bind at 1, lift at 1.
  rewrite set_rng_ok by (rewrite !app_length, ?hdr5_length, skipn_length; lia).
  rewrite <- (hdr5_length h 0) at 1. rewrite splice_at by (rewrite app_length; lia).
  rewrite Hlen, skipn_app, skipn_all, Nat.sub_diag. cbn [skipn app].
  unfold bind at 1, put, ret at 1. unfold bind. rewrite rewind_ok. unfold ret.
  f_equal. f_equal. lia.
Qed.

(** A whole record, in the clear. *)
Lemma write_record_plain C r w tr pl pl' tr' buf :
  encodes (cr_encode_payload C r) pl tt ->
  cr_finish C r w pl tr = Ok (pl', tr') -> length pl' = length pl ->
  rh_is_encrypted (cr_header r) = false ->
  5 + length pl <= length buf ->
  wb_write_record C r w tr (mk_wbuf buf 0 None)
  = (Ok (hdr5 (cr_header r) (length pl) ++ pl', tr'),
     mk_wbuf (hdr5 (cr_header r) (length pl) ++ pl' ++ skipn (5 + length pl) buf) 0 None).
Proof.
  intros Henc Hfin Hlen Hpl Hfit. unfold wb_write_record, bind at 1, get at 1. cbn [wb_hdr].
  unfold bind at 1. rewrite start_record_ok by lia.
  unfold bind at 1. erewrite payload_stage; eauto; [|rewrite skipn_length; lia].
  unfold bind at 1. rewrite <- Hlen. rewrite close_plain by assumption.
  unfold ret. rewrite Hlen, skipn_skipn, (Nat.add_comm (length pl)). reflexivity.
Qed.

(** A whole record, protected. *)
Lemma write_record_protected C r w tr pl pl' tr' buf :
  crypto_ok C -> length (k_iv (w_state w)) = iv_len C ->
  encodes (cr_encode_payload C r) pl tt ->
  cr_finish C r w pl tr = Ok (pl', tr') -> length pl' = length pl ->
  rh_is_encrypted (cr_header r) = true ->
  5 + length pl + 17 <= length buf ->
  wb_write_record C r w tr (mk_wbuf buf 0 None)
  = (Ok (protected_record C (w_state w) (rh_trailer_content_type (cr_header r)) pl', tr'),
     mk_wbuf (protected_record C (w_state w) (rh_trailer_content_type (cr_header r)) pl'
              ++ skipn (22 + length pl) buf) 0 None).
Proof.
  intros HC Hiv Henc Hfin Hlen Hpl Hfit. unfold wb_write_record, bind at 1, get at 1. cbn [wb_hdr].
  unfold bind at 1. rewrite start_record_ok by lia.
  unfold bind at 1. erewrite payload_stage; eauto; [|rewrite skipn_length; lia].
  unfold bind at 1. rewrite <- Hlen. rewrite close_protected; auto; [|rewrite !skipn_length; lia].
  unfold ret. rewrite !skipn_skipn. do 3 f_equal. f_equal. lia.
Qed.

(** When the payload does not fit, the record is refused with an out-of-space error. *)
Lemma write_record_no_room C r w tr pl buf :
  encodes (cr_encode_payload C r) pl tt ->
  length buf < 5 + length pl ->
  exists e W', wb_write_record C r w tr (mk_wbuf buf 0 None) = (Err e, W') /\ space_error e
    /\ length (wb_buf W') = length buf.
Proof.
  intros Henc Hfit. unfold wb_write_record, bind at 1, get at 1. cbn [wb_hdr]. unfold bind at 1.
  destruct (le_lt_dec 5 (length buf)) as [H5|H5].
  2:{ destruct (start_record_err (cr_header r) buf H5) as (e & w' & -> & Hs & Hl & _). eauto. }
  rewrite start_record_ok by lia. unfold bind at 1.
  destruct (Henc (hdr5 (cr_header r) 0) (skipn 5 buf) 5 0) as [_ He]; [now rewrite hdr5_length|].
  destruct He as (e & R' & len' & He & Hs & HR & _); [rewrite skipn_length; lia|].
  erewrite with_buffer_err.
  2:{ unfold bind at 1. rewrite forward_ok. unfold bind at 1. rewrite He. reflexivity. }
  eexists _, _. split; [reflexivity|]. split; [assumption|]. cbn [wb_buf cb_buf].
  rewrite app_length, hdr5_length, HR, skipn_length. lia.
Qed.
