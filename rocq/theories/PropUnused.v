(** * C76, C72: the encoders and parsers that nothing calls *)
From Coq Require Import List NArith Arith Bool Lia.
From Coq.Strings Require Import Byte.
From Verif Require Import Base Buffer ParseBuffer Codes Extensions Unused BaseProofs SpecWire WireProofs BufferProofs SpecCodes SpecMessages
  ExtProofs AcceptProofs MessageProofs HelloProofs PropCodes SpecCodec PropCodec PropExact.
Import ListNotations.
Local Open Scope list_scope.

(** The extensions of a HelloRetryRequest: of the known types RFC 8446 (4.2) allows key_share, cookie and supported_versions there.  These are
    taken with all their bytes, any other known type is refused with illegal_parameter, an unknown one is to be skipped. *)
Theorem C76_retry : forall n b, (n < 65536)%N -> (N.of_nat (length b) < 65536)%N ->
  forall pre post, ext_parse grp_hello_retry (mk_pbuf (length pre) (pre ++ (uint 2 n ++ vec 2 b) ++ post)) =
  (match ext_type_of n with
   | Some t => if existsb (N.eqb n) [51; 44; 43]%N then Ok (mk_ext t (XD_Unimpl b)) else Err (AbortHandshake AL_Fatal AD_IllegalParameter)
   | None => Err UnknownExtensionType
   end, mk_pbuf (length (pre ++ uint 2 n ++ vec 2 b)) (pre ++ (uint 2 n ++ vec 2 b) ++ post)).
Proof.
  intros n b Hn Hb pre post. change (uint 2 n ++ vec 2 b) with (item_wire (n, b)).
  change (mk_pbuf (length pre) (pre ++ item_wire (n, b) ++ post)) with (at_pos pre (item_wire (n, b)) post).
  rewrite ext_parse_item by (split; [exact Hn|apply fits_2, Hb]). unfold at_pos. cbn [app]. rewrite <- app_assoc. f_equal.
  destruct (ext_type_of n) as [t|] eqn:Et; [|reflexivity].
  assert (Hc : n = ext_type_code t) by (symmetry; apply (proj2 (C03_round_trip _ _ _ C03_extension_type)); exact Et). subst n.
  destruct t; reflexivity.
Qed.

(** What is written is read: the extensions of these three types, and the group asked for. *)
Theorem C76_retry_back : forall t b w, In t [ET_KeyShare; ET_Cookie; ET_SupportedVersions] -> writes (ext_encode (mk_ext t (XD_Unimpl b))) w ->
  (N.of_nat (length w) < 65536)%N -> reads (ext_parse grp_hello_retry) w (mk_ext t (XD_Unimpl b)).
Proof.
  intros t b w Ht Hw Hl pre post.
  assert (He : writes (ext_encode (mk_ext t (XD_Unimpl b))) (uint 2 (ext_type_code t) ++ vec 2 b)).
  { apply encodes_writes. unfold ext_encode. cbn [x_type x_data enc_ext_data]. eapply encodes_bind; [apply encodes_enc_err, encodes_uint2|].
    apply encodes_vec2, encodes_extend. }
  rewrite (writes_unique _ _ _ Hw He) in *. rewrite app_length, vec_length, uint_length in Hl.
  rewrite C76_retry; [|destruct t; reflexivity|lia]. rewrite (proj1 (C03_round_trip _ _ _ C03_extension_type)).
  cbn [In] in Ht. destruct Ht as [<-|[<-|[<-|[]]]]; reflexivity.
Qed.
Theorem C76_retry_group : forall g w, writes (enc_key_share_retry g) w -> reads parse_key_share_retry w g.
Proof.
  intros g w Hw. rewrite (writes_unique _ _ _ Hw (encodes_writes _ _ (encodes_enc_err _ _ _ (encodes_uint2 _)))).
  apply parses_reads, parses_group.
Qed.

(** A change_cipher_spec is written as the byte 1 (RFC 8446, section 5) and not read back: the parser takes nothing and accepts everything. *)
Theorem C76_ccs_refuted : writes enc_ccs [x01] /\ forall s, parse_ccs s = (Ok tt, s).
Proof. split; [|reflexivity]. apply encodes_writes. apply encodes_enc_err. exact (encodes_push x01). Qed.

(** [copy] appends exactly the next [n] bytes to a vector that has room for them and goes on behind them; without the room, or without the
    bytes, it is an error, and neither the vector nor the position has moved. *)
Theorem C76_copy : forall cap dest n pre rest, length dest <= cap ->
  pb_copy cap dest n (mk_pbuf (length pre) (pre ++ rest)) =
  (if cap <? length dest + n then (Err PE_InsufficientSpace, mk_pbuf (length pre) (pre ++ rest))
   else if length rest <? n then (Err PE_InsufficientBytes, mk_pbuf (length pre) (pre ++ rest))
   else (Ok (dest ++ firstn n rest), mk_pbuf (length pre + n) (pre ++ rest))).
Proof.
  intros cap dest n pre rest Hd. unfold pb_copy, lift, usize_sub, bind, fail, ret.
  rewrite (proj2 (Nat.leb_le _ _) Hd). destruct (cap - length dest <? n) eqn:E1; destruct (cap <? length dest + n) eqn:E2;
    repeat match goal with H : (_ <? _) = true |- _ => apply Nat.ltb_lt in H | H : (_ <? _) = false |- _ => apply Nat.ltb_ge in H end;
    try (exfalso; lia); [reflexivity|].
  destruct (length rest <? n) eqn:E3; [apply Nat.ltb_lt in E3|apply Nat.ltb_ge in E3].
  - unfold pb_take. cbn [pb_pos pb_buf]. rewrite app_length, (proj2 (Nat.leb_gt _ _)) by lia. reflexivity.
  - pose proof (parses_take n (firstn n rest) (firstn_length_le _ E3) pre (skipn n rest)) as H.
    unfold at_pos in H. rewrite firstn_skipn in H. rewrite H, app_length, firstn_length_le by exact E3.
    cbn [app]. rewrite <- app_assoc, firstn_skipn. reflexivity.
Qed.

(** What is left of a buffer as a vector: all of it, or nothing when the vector is too small. *)
Theorem C76_rest : forall E cap pre rest,
  @pb_into_vec E cap (mk_pbuf (length pre) (pre ++ rest)) = Ok (if length rest <=? cap then Some rest else None).
Proof.
  intros E cap pre rest. unfold pb_into_vec. cbn [pb_pos pb_buf].
  rewrite slice_from_ok by (rewrite app_length; lia). cbn [obind]. rewrite skipn_app, skipn_all, Nat.sub_diag. reflexivity.
Qed.

Example C76_copy_case :
  pb_copy 4 [x09] 3 (mk_pbuf 1 [x00; x01; x02; x03; x04]) = (Ok [x09; x01; x02; x03], mk_pbuf 4 [x00; x01; x02; x03; x04]) /\
  pb_copy 4 [x09] 4 (mk_pbuf 1 [x00; x01; x02; x03; x04]) = (Err PE_InsufficientSpace, mk_pbuf 1 [x00; x01; x02; x03; x04]) /\
  @pb_into_vec tls_error 2 (mk_pbuf 1 [x00; x01; x02]) = Ok (Some [x01; x02]).
Proof.
  split; [exact (C76_copy 4 [x09] 3 [x00] [x01; x02; x03; x04] ltac:(cbn; lia))|].
  split; [exact (C76_copy 4 [x09] 4 [x00] [x01; x02; x03; x04] ltac:(cbn; lia))|exact (C76_rest _ 2 [x00] [x01; x02])].
Qed.

Example C76_retry_case :
  fst (ext_parse grp_hello_retry (pb_new (uint 2 51 ++ vec 2 [x00; x1d]))) = Ok (mk_ext ET_KeyShare (XD_Unimpl [x00; x1d])) /\
  fst (ext_parse grp_hello_retry (pb_new (uint 2 0 ++ vec 2 []))) = Err (AbortHandshake AL_Fatal AD_IllegalParameter) /\
  reads parse_key_share_retry [x00; x1d] NG_X25519.
Proof.
  assert (H : forall n b, (n < 65536)%N -> (N.of_nat (length b) < 65536)%N -> pb_new (uint 2 n ++ vec 2 b) = mk_pbuf (length (@nil byte)) ([] ++ (uint 2 n ++ vec 2 b) ++ [])).
  { intros n b _ _. cbn [app length]. now rewrite app_nil_r. }
  split; [|split].
  - rewrite H, C76_retry by reflexivity. reflexivity.
  - rewrite H, C76_retry by reflexivity. reflexivity.
  - apply C76_retry_group. exact (encodes_writes _ _ (encodes_enc_err _ _ _ (encodes_uint2 _))).
Qed.

Print Assumptions C76_retry.
Print Assumptions C76_retry_back.
Print Assumptions C76_retry_group.
Print Assumptions C76_ccs_refuted.
Print Assumptions C76_copy.
Print Assumptions C76_rest.
