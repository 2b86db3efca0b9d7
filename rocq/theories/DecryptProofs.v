(** * Decrypting a record: the code against RFC 8446 section 5 *)
From Coq Require Import List NArith Arith Bool Lia ZArith.
From Coq.Strings Require Import Byte.
From Coq Require Import ZifyBool ZifyNat ZifyN.
From Verif Require Import Base ParseBuffer Buffer Codes Extensions Crypto KeySchedule Config Handshake Record
  Transport RecordReader ReadBuffer Connection Api BaseProofs ParseProofs SpecWire SpecKeys SpecRecord SpecRead
  KeyProofs RecordProofs FrameProofs.
Import ListNotations.

(** ** Opening *)

Lemma rfc_open_length C key iv n h f inner : crypto_ok C -> rfc_open C key iv n h f = Some inner ->
  length f = length inner + tag_len C.
Proof.
  intros HC. unfold rfc_open. destruct (Nat.ltb_spec (length f) (tag_len C)) as [H|H]; [discriminate|]. intros E.
  apply (ok_open_len C HC) in E. rewrite firstn_length in E. lia.
Qed.

Lemma decrypt_in_place_spec C key iv n h f : crypto_ok C ->
  decrypt_in_place C key (rfc_nonce iv n) h (cb_wrap_with_pos f (length f)) =
    match rfc_open C key iv n h f with
    | None => (Err CryptoError, cb_wrap_with_pos f (length f))
    | Some inner => (Ok tt, mk_cbuf (splice f 0 inner) 0 (length inner))
    end.
Proof.
  intros HC. unfold decrypt_in_place, bind at 1, get. unfold bind at 1, lift at 1, cb_as_slice, cb_wrap_with_pos.
  cbn [cb_buf cb_off cb_len Nat.add]. rewrite slice_rng_ok by lia. rewrite Nat.sub_0_r, sub_full.
  pose proof (rfc_open_length C key iv n h f) as Hlen. unfold rfc_open in *.
  destruct (Nat.ltb_spec (length f) (tag_len C)) as [H|H]; [reflexivity|].
  destruct (c_open _ _ _ _ _ _) as [m|]; [|reflexivity]. specialize (Hlen m HC eq_refl).
  unfold bind, lift, put, cb_truncate. rewrite set_rng_ok by lia. unfold cb_capacity. cbn [cb_buf cb_off cb_len].
  rewrite splice_length by lia. rewrite usize_sub_ok by lia. rewrite Nat.sub_0_r.
  destruct (Nat.leb_spec (length f - tag_len C) (length f)) as [_|H1]; [|lia]. f_equal. f_equal. lia.
Qed.

(** ** The content type *)

Lemma rfind_none l : rfind_nonzero l = None -> l = repeat x00 (length l).
Proof.
  induction l as [|b l IH]; [reflexivity|]. cbn [rfind_nonzero length repeat]. destruct (rfind_nonzero l); [discriminate|].
  destruct (byte_eqb b x00) eqn:E; [|discriminate]. intros _. apply byte_eqb_eq in E. f_equal; [exact E|now apply IH].
Qed.

Lemma rfind_some l i : rfind_nonzero l = Some i ->
  exists c t n, l = c ++ [t] ++ repeat x00 n /\ length c = i /\ t <> x00.
Proof.
  revert i. induction l as [|b l IH]; [discriminate|]. intros i. cbn [rfind_nonzero].
  destruct (rfind_nonzero l) as [j|] eqn:E.
  - intros H. inversion H. subst i. destruct (IH j eq_refl) as (c & t & n & -> & Hl & Ht).
    exists (b :: c), t, n. split; [reflexivity|]. split; [cbn; lia|exact Ht].
  - destruct (byte_eqb b x00) eqn:Eb; [discriminate|]. intros H. inversion H. subst i.
    exists [], b, (length l). apply rfind_none in E. split; [cbn; now f_equal|]. split; [reflexivity|].
    intros ->. now rewrite (proj2 (byte_eqb_eq _ _) eq_refl) in Eb.
Qed.

Lemma unpad_none_zeros n : rfc_unpad (repeat x00 n) = None.
Proof.
  unfold rfc_unpad. rewrite rev_repeat. rewrite <- (app_nil_r (repeat x00 n)), drop_zeros_repeat. reflexivity.
Qed.

Lemma strip_spec (inner tl : bytes) :
  let c := mk_cbuf (inner ++ tl) 0 (length inner) in
  match rfc_unpad inner with
  | Some (t, content) =>
      match content_type_of (Byte.to_N t) with
      | Some ct => strip_content_type c = (Ok ct, mk_cbuf (inner ++ tl) 0 (length content))
      | None => fst (strip_content_type c) = Err InvalidRecord
      end /\ exists n, inner = rfc_inner t content n
  | None =>
      match inner with
      | [] => fst (strip_content_type c) = Panic PUnwrap
      | _ => strip_content_type c = (Ok CT_Invalid, mk_cbuf (inner ++ tl) 0 (length inner - 1))
      end /\ inner = repeat x00 (length inner)
  end.
Proof.
  intros c. 
  assert (Hs : forall k, k <= length inner -> cb_as_slice (E:=tls_error) (mk_cbuf (inner ++ tl) 0 k) = Ok (firstn k inner)).
  { intros k Hk. unfold cb_as_slice. cbn [cb_buf cb_off cb_len]. rewrite slice_rng_ok by (rewrite ?app_length; lia).
    f_equal. unfold sub. cbn [skipn]. rewrite firstn_app, Nat.add_0_l, Nat.sub_0_r. replace (k - length inner) with 0 by lia.
    cbn. apply app_nil_r. }
  assert (Htr : forall k, k <= length inner -> forall m, cb_truncate k (mk_cbuf (inner ++ tl) 0 m) = (Ok tt, mk_cbuf (inner ++ tl) 0 k)).
  { intros k Hk m. unfold cb_truncate, cb_capacity. cbn [cb_buf cb_off]. rewrite usize_sub_ok by lia.
    rewrite Nat.sub_0_r, app_length. destruct (Nat.leb_spec k (length inner + length tl)); [reflexivity|lia]. }
  assert (Hgo : strip_content_type c = (match rfind_nonzero inner with Some i => cb_truncate (i + 1) | None => ret tt end ;;;
      c1 <- get ;; s1 <- lift (cb_as_slice c1) ;; b <- lift (unwrap (nth_error (rev s1) 0)) ;;
      t <- lift (ok_or InvalidRecord (content_type_of (Byte.to_N b))) ;;
      n <- lift (usize_sub (cb_len c1) 1) ;; cb_truncate n ;;; ret t) c).
  { unfold strip_content_type. unfold bind at 1, get at 1. unfold bind at 1, lift at 1. unfold c. rewrite Hs by lia.
    rewrite firstn_all. reflexivity. }
  unfold c in *. clear c.
  destruct (rfind_nonzero inner) as [i|] eqn:Er.
  - apply rfind_some in Er as (content & t & n & E & Hl & Ht). 
    change (inner = rfc_inner t content n) in E. pose proof (unpad_inner t content n Ht) as Hu. rewrite <- E in Hu. rewrite Hu.
    split; [|eauto]. assert (Hlen : length inner = i + 1 + n) by (rewrite E, rfc_inner_length; lia).
    assert (Hf : firstn (i + 1) inner = content ++ [t]).
    { rewrite E. unfold rfc_inner. rewrite app_assoc. apply firstn_app_exact. rewrite app_length. cbn. lia. }
    assert (Hr : strip_content_type (mk_cbuf (inner ++ tl) 0 (length inner)) =
       match content_type_of (Byte.to_N t) with
       | Some ct => (Ok ct, mk_cbuf (inner ++ tl) 0 (length content))
       | None => (Err InvalidRecord, mk_cbuf (inner ++ tl) 0 (i + 1))
       end).
    { rewrite Hgo. unfold bind at 1. rewrite Htr by lia. unfold bind at 1, get at 1. unfold bind at 1, lift at 1. rewrite Hs by lia. rewrite Hf.
      unfold bind at 1, lift at 1. rewrite rev_unit. cbn [nth_error unwrap]. unfold bind at 1, lift at 1.
      destruct (content_type_of (Byte.to_N t)) as [ct|]; cbn [ok_or]; [|reflexivity].
      unfold bind at 1, lift at 1. cbn [cb_len]. rewrite usize_sub_ok by lia. unfold bind. rewrite Htr by lia. unfold ret.
      f_equal. f_equal. lia. }
    rewrite Hr. destruct (content_type_of (Byte.to_N t)); reflexivity.
  - apply rfind_none in Er.
    assert (Hu : rfc_unpad inner = None) by (rewrite Er; apply unpad_none_zeros). rewrite Hu. split; [|exact Er].
    destruct inner as [|b inner'] eqn:Ei.
    + rewrite Hgo. reflexivity.
    + rewrite <- Ei in *. rewrite Hgo. unfold bind at 1, ret at 1. unfold bind at 1, get at 1. unfold bind at 1, lift at 1. rewrite Hs by lia.
      rewrite firstn_all.
      assert (Hrev : nth_error (rev inner) 0 = Some x00) by (rewrite Er, rev_repeat, Ei; reflexivity).
      unfold bind at 1, lift at 1. rewrite Hrev. cbn [unwrap]. unfold bind at 1, lift at 1.
      change (content_type_of (Byte.to_N x00)) with (Some CT_Invalid). cbn [ok_or]. unfold bind at 1, lift at 1. cbn [cb_len].
      assert (length inner <> 0) by (rewrite Ei; discriminate).
      rewrite usize_sub_ok by lia. unfold bind. rewrite Htr by lia. reflexivity.
Qed.

(** ** [decrypt_record], any callback *)

Section Decrypt.
Context {S : Type} (C : crypto) (cb : rks -> server_record -> M S tls_error unit).

Definition with_buf (s : rdst) (b : bytes) : rdst := mk_rdst b (rd_decoded s) (rd_pending s) (rd_rx s) (rd_ks s).

(** The reader after the fragment [f] at [off] was decrypted in place to [inner]. *)
Definition decrypted (s : rdst) (off : nat) (f inner : bytes) : rdst :=
  with_buf s (splice (rd_buf s) off (splice f 0 inner)).

Lemma splice_head (f inner : bytes) : length inner <= length f -> splice f 0 inner = inner ++ skipn (length inner) f.
Proof. intros _. reflexivity. Qed.

(** What is done with the content of an authentic record. *)
Definition dispatch (h : bytes) (off : nat) (buf content : bytes) (t : content_type) : M (rdst * S) tls_error unit :=
  match t with
  | CT_Handshake => handshake_loop C cb (Datatypes.S (length content)) (pb_new content)
  | CT_ApplicationData => call_cb cb (SR_AppData h off (mk_cbuf buf 0 (length content)))
  | CT_Alert => ld <- lift (fst (parse_alert (pb_new content))) ;; call_cb cb (SR_Alert (fst ld) (snd ld))
  | _ => fail Unimplemented
  end ;;; on_fst rd_increment.

Lemma decrypt_app h off f s x : crypto_ok C -> length (k_iv (r_state (rd_ks s))) = iv_len C ->
  off + length f <= length (rd_buf s) ->
  let k := r_state (rd_ks s) in
  match rfc_open C (k_key k) (k_iv k) (k_counter k) h f with
  | None => decrypt_record C cb (SR_AppData h off (cb_wrap_with_pos f (length f))) (s, x) = (Err CryptoError, (s, x))
  | Some inner =>
      length f = length inner + tag_len C /\
      decrypt_record C cb (SR_AppData h off (cb_wrap_with_pos f (length f))) (s, x) =
        match rfc_unpad inner with
        | None => ((match inner with [] => Panic PUnwrap | _ => Err Unimplemented end), (decrypted s off f inner, x))
        | Some (t, content) =>
            match content_type_of (Byte.to_N t) with
            | None => (Err InvalidRecord, (decrypted s off f inner, x))
            | Some ct => dispatch h off (splice f 0 inner) content ct (decrypted s off f inner, x)
            end
        end
  end.
Proof.
  intros HC Hiv Hoff k.
  assert (Hstart : forall o d, decrypt_in_place C (k_key k) (rfc_nonce (k_iv k) (k_counter k)) h (cb_wrap_with_pos f (length f)) = (o, d) ->
    decrypt_record C cb (SR_AppData h off (cb_wrap_with_pos f (length f))) (s, x) =
    (
     lift o ;;;
     on_fst (s <- get ;; b <- lift (set_rng (rd_buf s) off (cb_buf d)) ;;
             put (mk_rdst b (rd_decoded s) (rd_pending s) (rd_rx s) (rd_ks s))) ;;;
     let '(o2, data2) := strip_content_type d in
     t <- lift o2 ;; inner <- lift (cb_as_slice data2) ;;
     match t with
     | CT_Handshake => handshake_loop C cb (Datatypes.S (length inner)) (pb_new inner)
     | CT_ApplicationData => call_cb cb (SR_AppData h off data2)
     | CT_Alert => ld <- lift (fst (parse_alert (pb_new inner))) ;; call_cb cb (SR_Alert (fst ld) (snd ld))
     | _ => fail Unimplemented
     end ;;; on_fst rd_increment) (s, x)).
  { intros o d E. unfold decrypt_record. unfold bind at 1, get at 1. cbn [fst]. fold k. unfold bind at 1, lift at 1.
    unfold kstate_nonce. rewrite get_nonce_spec by assumption. rewrite E. reflexivity. }
  rewrite decrypt_in_place_spec in Hstart by exact HC.
  destruct (rfc_open C (k_key k) (k_iv k) (k_counter k) h f) as [inner|] eqn:Eo.
  2:{ rewrite (Hstart _ _ eq_refl). reflexivity. }
  pose proof (rfc_open_length _ _ _ _ _ _ _ HC Eo) as Hlen. split; [exact Hlen|].
  rewrite (Hstart _ _ eq_refl). clear Hstart Eo.
  unfold bind at 1, lift at 1. unfold bind at 1, on_fst at 1. cbn [fst snd]. unfold bind at 1, get at 1.
  cbn [cb_buf]. unfold bind at 1, lift at 1. rewrite set_rng_ok by (rewrite splice_length; lia). unfold put at 1.
  fold (with_buf s (splice (rd_buf s) off (splice f 0 inner))). fold (decrypted s off f inner).
  pose proof (strip_spec inner (skipn (length inner) f)) as Hst. cbv zeta in Hst.
  change (inner ++ skipn (length inner) f) with (splice f 0 inner) in Hst.
  assert (Hsl : forall c n, inner = c ++ n -> cb_as_slice (E:=tls_error) (mk_cbuf (splice f 0 inner) 0 (length c)) = Ok c).
  { intros c n Hc. unfold cb_as_slice. cbn [cb_buf cb_off cb_len]. assert (length inner = length c + length n) by (rewrite Hc, app_length; reflexivity).
    rewrite slice_rng_ok by (rewrite ?splice_length; lia). f_equal. unfold sub. cbn [skipn Nat.add]. rewrite Nat.sub_0_r.
    change (splice f 0 inner) with (inner ++ skipn (length inner) f). rewrite Hc, <- app_assoc. now apply firstn_app_exact. }
  destruct (rfc_unpad inner) as [[t content]|].
  - destruct Hst as [Hst [n Hi]]. destruct (content_type_of (Byte.to_N t)) as [ct|].
    + rewrite Hst. unfold bind at 1, lift at 1. unfold bind at 1, lift at 1.
      rewrite (Hsl content _ Hi). reflexivity.
    + destruct (strip_content_type _) as [o2 d2]. cbn [fst] in Hst. subst o2. reflexivity.
  - destruct Hst as [Hst Hz]. destruct inner as [|b inner'] eqn:Ei.
    + destruct (strip_content_type _) as [o2 d2]. cbn [fst] in Hst. subst o2. reflexivity.
    + rewrite Hst. unfold bind at 1, lift at 1. unfold bind at 1, lift at 1.
      replace (length (b :: inner') - 1) with (length inner') by (cbn; lia).
      rewrite <- Ei in *.
      assert (Hz2 : inner = inner' ++ [x00]).
      { assert (L : length inner = Datatypes.S (length inner')) by (rewrite Ei; reflexivity).
        assert (Hi' : inner' = repeat x00 (length inner')).
        { rewrite Hz in Ei. rewrite L in Ei. cbn [repeat] in Ei. inversion Ei. now rewrite repeat_length. }
        rewrite Hz, L. cbn [repeat]. rewrite repeat_cons. now rewrite <- Hi'. }
      rewrite (Hsl inner' _ Hz2). reflexivity.
Qed.
End Decrypt.
