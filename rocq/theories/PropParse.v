(** * C01 and C02: decoding what the server sends *)
From Coq Require Import List NArith Arith Bool Lia.
From Coq.Strings Require Import Byte.
From Verif Require Import Base ParseBuffer Codes Extensions Crypto KeySchedule Config Handshake Record
  SpecWire SpecCodes SpecMessages BaseProofs ParseProofs WireProofs ExtProofs Transport RecordReader Toy.
Import ListNotations.

(** ** C01 *)

Definition value_or_error {E A} (o : outcome E A) : Prop :=
  match o with Ok _ | Err _ => True | Panic _ | Diverge | Cancelled => False end.

(** A record header the client accepts: five bytes whose type byte is a content type of
    the registry; it announces the length in its last two bytes. *)
Definition header_of (ty : N) (version : bytes) (len : nat) : bytes :=
  uint 1 ty ++ version ++ uint 2 (N.of_nat len).

Theorem C01_record_decode_total : forall C ty version data off tr,
  In ty (map fst iana_content_type) -> length version = 2 -> fits 2 data ->
  let h := header_of ty version (length data) in
  hdr_decode h = Ok h /\ value_or_error (sr_decode C h off data tr).
Proof.
  intros C ty version data off tr Hty Hv Hd h. apply (proj1 (fits_2 _)) in Hd.
  assert (Hl : length h = 5).
  { unfold h, header_of. rewrite !app_length, !uint_length. lia. }
  assert (Hdec : hdr_decode h = Ok h).
  { unfold hdr_decode, h, header_of. rewrite uint_b8. cbn [app index nth_error obind].
    rewrite to_N_b8. apply in_map_iff in Hty as ([n t] & Hn & Hin). cbn in Hn; subst.
    destruct PropCodes.C03_content_type as (_ & H2 & _). apply H2 in Hin.
    rewrite N.mod_small; [now rewrite Hin|].
    apply H2 in Hin. cbn in Hin.
    repeat (destruct Hin as [Hin|Hin]; [inversion Hin; reflexivity|]). contradiction. }
  split; [assumption|].
  assert (Hn : hdr_content_length h = Ok (length data)).
  { destruct (hdr_content_length_ok h Hl) as (n & Hn & Hv2 & _). rewrite Hn, Hv2. f_equal.
    unfold h, header_of. rewrite app_assoc, skipn_app.
    replace (3 - length (uint 1 ty ++ version)) with 0 by (rewrite app_length, uint_length; lia).
    rewrite skipn_all2 by (rewrite app_length, uint_length; lia). cbn [app skipn].
    rewrite be_val_uint_small by exact Hd. apply Nat2N.id. }
  pose proof (sr_decode_safe C h off data tr Hl Hdec Hn) as H.
  destruct (sr_decode C h off data tr); auto.
Qed.
Print Assumptions C01_record_decode_total.

(** A header with any other type byte is refused with an error. *)
Theorem C01_other_headers_refused : forall ty rest,
  (ty < 256)%N -> ~ In ty (map fst iana_content_type) ->
  hdr_decode (uint 1 ty ++ rest) = Err InvalidRecord.
Proof.
  intros ty rest Ht Hn. rewrite uint_b8. unfold hdr_decode. cbn [app index nth_error obind].
  rewrite to_N_b8, N.mod_small by assumption.
  destruct (content_type_of ty) as [t|] eqn:E; [|reflexivity].
  exfalso. apply Hn. destruct PropCodes.C03_content_type as (_ & H2 & _). apply H2 in E.
  apply in_map_iff. exists (ty, t). auto.
Qed.
Print Assumptions C01_other_headers_refused.

(** The same for handshake messages taken from inside protected records; the position
    stays inside the payload, whatever the payload. *)
Theorem C01_handshake_decode_total : forall C tr data,
  value_or_error (fst (read_server_handshake C tr (pb_new data))) /\
  pb_buf (snd (read_server_handshake C tr (pb_new data))) = data /\
  pb_pos (snd (read_server_handshake C tr (pb_new data))) <= length data.
Proof.
  intros C tr data.
  pose proof (read_server_handshake_spec C tr (pb_new data) (pwf_new data)) as H.
  destruct (read_server_handshake C tr (pb_new data)) as [[[a b]|e|x| |] p']; try contradiction;
    cbn [fst snd]; unfold pwf in H; cbn [pb_buf pb_new] in H.
  - destruct H as (Hb & Hp & Hw & _). rewrite Hb in *. repeat split; auto.
  - destruct H as (Hb & Hp & Hw). rewrite Hb in *. repeat split; auto.
Qed.
Print Assumptions C01_handshake_decode_total.

Theorem C01_alert_decode_total : forall data, value_or_error (fst (parse_alert (pb_new data))).
Proof.
  intros data. pose proof (safe_alert (pb_new data) (pwf_new data)) as H.
  destruct (parse_alert (pb_new data)) as [[a|e|x| |] p']; try contradiction; exact I.
Qed.
Print Assumptions C01_alert_decode_total.

(** Nothing outside the payload is inspected: the record taken from the read buffer is the
    same whatever surrounds the payload in it. *)
Theorem C01_only_payload : forall C h pre pre' data post post' pend rx k,
  length h = 5 -> hdr_content_length h = Ok (length data) -> length data <= pend ->
  length pre = length pre' ->
  let st p q := mk_rdst (p ++ data ++ q) (length pre) pend rx k in
  fst (consume_record C h (st pre post)) = fst (consume_record C h (st pre' post')) /\
  rd_ks (snd (consume_record C h (st pre post))) = rd_ks (snd (consume_record C h (st pre' post'))).
Proof.
  intros C h pre pre' data post post' pend rx k Hl Hn Hp Hlen st.
  assert (H : forall p q, length p = length pre ->
    consume_record C h (st p q) =
    (let s1 := mk_rdst (p ++ data ++ q) (length pre + length data) (pend - length data) rx k in
     match sr_decode C h (length pre) data (r_transcript k) with
     | Ok rt => (Ok (fst rt), mk_rdst (p ++ data ++ q) (length pre + length data)
                   (pend - length data) rx (r_with_transcript k (snd rt)))
     | Err e => (Err e, s1) | Panic x => (Panic x, s1) | Diverge => (Diverge, s1)
     | Cancelled => (Cancelled, s1) end)).
  { intros p q Hpl. unfold consume_record, st. rewrite Hn. unfold bind at 1, lift at 1.
    unfold bind at 1, get at 1. cbn [rd_buf rd_decoded rd_pending rd_rx rd_ks].
    rewrite slice_from_ok by (rewrite !app_length; lia).
    unfold bind at 1, lift at 1.
    rewrite <- Hpl, skipn_app, skipn_all, Nat.sub_diag. cbn [app skipn].
    rewrite slice_rng_ok by (rewrite ?app_length; lia). unfold bind at 1, lift at 1.
    unfold sub. cbn [skipn]. rewrite Nat.sub_0_r, firstn_app, firstn_all, Nat.sub_diag.
    cbn [firstn]. rewrite app_nil_r. rewrite usize_sub_ok by assumption.
    unfold bind, lift, put, modify, ret.
    destruct (sr_decode C h (length p) data (r_transcript k)) as [rt|e|x| |]; reflexivity. }
  rewrite (H pre post eq_refl), (H pre' post' (eq_sym Hlen)).
  destruct (sr_decode C h (length pre) data (r_transcript k)); split; reflexivity.
Qed.
Print Assumptions C01_only_payload.

(** ** C02 *)

(** What a message gives the client, apart from the raw copy of the certificate list
    (which contains the extension bytes). *)
Definition content (o : outcome tls_error server_handshake) : outcome tls_error server_handshake :=
  omap (fun h => match h with
                 | SH_Certificate c => SH_Certificate (mk_cert [] (ce_context c) (ce_entries c))
                 | _ => h
                 end) o.

Definition receive (C : crypto) (wire : bytes) : outcome tls_error server_handshake :=
  fst (parse_server_handshake C (pb_new wire)).

Lemma receive_message C f items : frame_ok f -> block_ok items ->
  receive C (message f items)
  = omap (built f items) (block_result (msg_group (frame_message f)) (msg_cap (frame_message f)) [] items).
Proof.
  intros Hf Hi. destruct (runs_message C f items Hf Hi [] []) as [H _].
  unfold at_pos in H. cbn [length app] in H. rewrite app_nil_r in H. exact H.
Qed.

Theorem C02_unknown_skipped : forall C f pre code body post,
  frame_ok f -> block_ok (pre ++ (code, body) :: post) -> block_ok (pre ++ post) ->
  ~ recognised code ->
  content (receive C (message f (pre ++ (code, body) :: post)))
  = content (receive C (message f (pre ++ post))).
Proof.
  intros C f pre code body post Hf H1 H2 Hr. rewrite !receive_message by assumption.
  rewrite block_result_skip by now apply not_recognised_of.
  destruct (block_result _ _ [] (pre ++ post)) as [xs|e|s| |]; try reflexivity.
  destruct f; reflexivity.
Qed.
Print Assumptions C02_unknown_skipped.

Theorem C02_misplaced_aborts : forall C f pre code body post h,
  frame_ok f -> block_ok (pre ++ (code, body) :: post) -> block_ok pre ->
  recognised code -> ~ In code (rfc_allowed (frame_message f)) ->
  receive C (message f pre) = Ok h ->
  receive C (message f (pre ++ (code, body) :: post))
  = Err (AbortHandshake AL_Fatal AD_IllegalParameter).
Proof.
  intros C f pre code body post h Hf H1 H2 Hr Ha Hh. rewrite receive_message in Hh |- * by assumption.
  destruct (block_result _ _ [] pre) as [xs|e|s| |] eqn:E; try discriminate.
  rewrite (block_result_app _ _ _ _ _ _ E). cbn [block_result].
  apply recognised_of in Hr as (ty & -> & Hc). 
  destruct (msg_group (frame_message f) ty) eqn:Eg; [|reflexivity].
  exfalso. apply Ha. rewrite <- Hc. apply allowed_group. congruence.
Qed.
Print Assumptions C02_misplaced_aborts.

(** A message that is accepted contains no recognised extension that is not allowed in it. *)
Theorem C02_accepted_only_allowed : forall C f items h,
  frame_ok f -> block_ok items -> receive C (message f items) = Ok h ->
  forall i, In i items -> recognised (fst i) -> In (fst i) (rfc_allowed (frame_message f)).
Proof.
  intros C f items h Hf Hi Hh. rewrite receive_message in Hh by assumption.
  destruct (block_result _ _ [] items) eqn:E; try discriminate.
  eapply block_result_accepts, E.
Qed.
Print Assumptions C02_accepted_only_allowed.

(** The extensions a ServerHello yields are exactly its recognised ones, in order. *)
Theorem C02_server_hello_yields : forall C v r sid suite comp items h,
  let f := F_ServerHello v r sid suite comp in
  frame_ok f -> block_ok items -> receive C (message f items) = Ok h ->
  exists xs, h = SH_ServerHello xs /\
    exists codes, map (fun x => ext_type_code (x_type x)) xs = codes /\
      codes = filter (fun c => existsb (N.eqb c) (map fst iana_ext_type)) (map fst items).
Proof.
  intros C v r sid suite comp items h f Hf Hi Hh. rewrite receive_message in Hh by assumption.
  destruct (block_result _ _ [] items) as [xs|e|s| |] eqn:E; try discriminate.
  cbn in Hh. inversion Hh; subst. exists xs. split; [reflexivity|]. eexists; split; [reflexivity|].
  rewrite (block_result_types _ _ _ _ _ E). cbn [map app]. apply filter_ext. intros c.
  destruct (recognised_b c) eqn:Eb.
  - apply recognised_b_iff in Eb. symmetry. apply existsb_exists. exists c. split; [exact Eb|].
    apply N.eqb_refl.
  - destruct (existsb (N.eqb c) (map fst iana_ext_type)) eqn:Ex; [|reflexivity].
    apply existsb_exists in Ex as (c' & Hin & Hc'). apply N.eqb_eq in Hc'. subst c'.
    apply recognised_b_iff in Hin. congruence.
Qed.
Print Assumptions C02_server_hello_yields.

(** ** Concrete cases *)

(** An EncryptedExtensions with an unknown extension, an allowed ALPN and a misplaced key_share. *)
Definition ex_unknown : ext_item := (0x1234%N, [x01; x02; x03]).
Definition ex_alpn : ext_item := (16%N, [x00; x03; x02; x68; x32]).
Definition ex_key_share : ext_item := (51%N, []).

Lemma ex_blocks : block_ok [ex_alpn] /\ block_ok [ex_unknown; ex_alpn] /\
  block_ok [ex_unknown; ex_alpn; ex_key_share].
Proof.
  unfold block_ok, fits. repeat split; repeat constructor; cbn; unfold fits; vm_compute; reflexivity.
Qed.

Example C02_ex_skip :
  receive toy (message F_EncryptedExtensions [ex_unknown; ex_alpn]) = Ok SH_EncryptedExtensions.
Proof. vm_compute. reflexivity. Qed.
Example C02_ex_abort :
  receive toy (message F_EncryptedExtensions [ex_unknown; ex_alpn; ex_key_share])
  = Err (AbortHandshake AL_Fatal AD_IllegalParameter).
Proof. vm_compute. reflexivity. Qed.

(** A ServerHello record as on the wire decodes. *)
Definition ex_sh : bytes :=
  message (F_ServerHello 0x0303 (zeros 32) [] 0x1301 0)
    [(43%N, [x03; x04]); (51%N, [x00; x17; x00; x02; xaa; xbb])].
Example C01_ex_server_hello :
  sr_decode toy (header_of 22 [x03; x03] (length ex_sh)) 0 ex_sh []
  = Ok (SR_Handshake (SH_ServerHello
          [mk_ext ET_SupportedVersions (XD_VersionSH 0x0304);
           mk_ext ET_KeyShare (XD_KeyShareSH NG_Secp256r1 [xaa; xbb])]), ex_sh).
Proof. vm_compute. reflexivity. Qed.
(** ... and a truncated one is an error, not a panic. *)
Example C01_ex_truncated :
  sr_decode toy (header_of 22 [x03; x03] 20) 0 (firstn 20 ex_sh) []
  = Err (ParseErr PE_InsufficientBytes).
Proof. vm_compute. reflexivity. Qed.
