(** * C16, C17: record framing and the transport *)
From Coq Require Import List NArith Arith Bool Lia ZArith.
From Coq.Strings Require Import Byte.
From Coq Require Import ZifyBool ZifyNat ZifyN.
From Verif Require Import Base ParseBuffer Buffer Codes Extensions Crypto KeySchedule Config Handshake Record
  WriteBuffer Transport RecordReader ReadBuffer Connection Api BaseProofs ParseProofs Toy SpecWire SpecKeys
  SpecRecord SpecRead FrameProofs ToyRun.
Import ListNotations.

Lemma type_known_ok h : length h = 5 -> type_known h -> known_type h.
Proof.
  intros Hl H. destruct h as [|t h]; [discriminate|]. unfold known_type, hdr_decode. cbn.
  unfold type_known in H. cbn [In] in H. decompose [or] H; try contradiction;
    match goal with E : _ = Byte.to_N t |- _ => rewrite <- E; reflexivity end.
Qed.

Lemma known_type_inv h : length h = 5 -> known_type h -> type_known h.
Proof.
  intros Hl. destruct h as [|t h]; [discriminate|]. unfold known_type, type_known, hdr_decode. cbn [index nth_error obind].
  destruct t; cbn; intros H; try discriminate H; tauto.
Qed.

Lemma sr_decode_anywhere C h off f tr :
  omap (fun rt => (anywhere (fst rt), snd rt)) (sr_decode C h off f tr) = sr_decode C h 0 f tr.
Proof.
  unfold sr_decode. destruct (hdr_content_length h); cbn [obind omap]; try reflexivity.
  destruct (negb _); [reflexivity|]. destruct (hdr_content_type h) as [t| | | |]; cbn [obind omap]; try reflexivity.
  destruct t; try reflexivity.
  - destruct (fst (parse_alert _)); reflexivity.
  - destruct (fst (read_server_handshake _ _ _)) as [[]| | | |]; reflexivity.
Qed.

Lemma reads_S C n s : reads C (S n) s =
  (fst (rd_read C s) :: fst (reads C n (snd (rd_read C s))), snd (reads C n (snd (rd_read C s)))).
Proof. cbn [reads]. destruct (rd_read C s). cbn [fst snd]. destruct (reads C n r). reflexivity. Qed.

(** Every record that fits the buffer is returned, in order, with exactly its bytes, however
    the transport cuts the stream and wherever in the buffer earlier records ended. *)
Theorem C16_in_order : forall C fs rest s,
  rd_pending s = 0 -> rd_decoded s <= length (rd_buf s) -> chunked (rd_rx s) ->
  stream (rd_rx s) = wire_of fs ++ rest -> Forall (readable (length (rd_buf s))) fs ->
  map (omap anywhere) (fst (reads C (length fs) s)) = meaning C (r_transcript (rd_ks s)) fs /\
  stream (rd_rx (snd (reads C (length fs) s))) = rest.
Proof.
  intros C. induction fs as [|[h f] fs IH]; intros rest s Hp Hd Hc Hs Hr.
  - cbn in *. auto.
  - apply Forall_cons_iff in Hr as [(Hf & Hk & Hl) Hr]. cbn [fst snd] in *.
    unfold wire_of in Hs. cbn [map concat fst snd] in Hs. fold (wire_of fs) in Hs. rewrite <- !app_assoc in Hs.
    destruct (ready_frame C s h f (wire_of fs ++ rest)) as (rx' & Hs1 & Hc1 & Hread);
      [repeat split; assumption|exact Hs|exact Hf|apply type_known_ok; [apply Hf|exact Hk]|exact Hl|].
    cbn [length]. rewrite reads_S. rewrite Hread. clear Hread. cbn [map fst snd meaning].
    assert (Hpl : place s (length f) + length f <= length (rd_buf s)).
    { unfold place. destruct (Nat.ltb_spec (length (rd_buf s)) (rd_decoded s + length f)); lia. }
    pose proof (sr_decode_anywhere C h (place s (length f)) f (r_transcript (rd_ks s))) as Hany.
    destruct (sr_decode C h (place s (length f)) f (r_transcript (rd_ks s))) as [[rec tr']|e|x| |];
      rewrite <- Hany; clear Hany; cbn [omap fst snd] in *.
    1: pose proof (IH rest (mk_rdst (splice (rd_buf s) (place s (length f)) f) (place s (length f) + length f) 0 rx' (r_with_transcript (rd_ks s) tr'))) as IH'.
    2,3,4,5: pose proof (IH rest (mk_rdst (splice (rd_buf s) (place s (length f)) f) (place s (length f) + length f) 0 rx' (rd_ks s))) as IH'.
    all: cbn [rd_buf rd_decoded rd_pending rd_rx rd_ks r_with_transcript r_transcript] in IH';
      rewrite splice_length in IH' by exact Hpl; destruct (IH' eq_refl Hpl Hc1 Hs1 Hr) as [I1 I2]; split; [|exact I2];
      cbv [omap obind]; cbn [fst snd]; f_equal; exact I1.
Qed.

(** Two readers in the same position, whose transports deliver the same bytes. *)
Definition same_stream (s t : rdst) : Prop :=
  length (rd_buf s) = length (rd_buf t) /\ rd_decoded s = rd_decoded t /\ rd_ks s = rd_ks t /\
  rd_pending s = 0 /\ rd_pending t = 0 /\ rd_decoded s <= length (rd_buf s) /\
  chunked (rd_rx s) /\ chunked (rd_rx t) /\ stream (rd_rx s) = stream (rd_rx t).

Lemma same_stream_step C s t : same_stream s t ->
  fst (rd_read C s) = fst (rd_read C t) /\
  (same_stream (snd (rd_read C s)) (snd (rd_read C t)) \/ rd_rx (snd (rd_read C s)) = [] /\ rd_rx (snd (rd_read C t)) = []).
Proof.
  intros (Hb & Hdd & Hk & Hps & Hpt & Hd & Hcs & Hct & Hst).
  assert (Rs : ready s) by (repeat split; assumption).
  assert (Rt : ready t) by (repeat split; try assumption; lia).
  destruct (Nat.ltb_spec (length (stream (rd_rx s))) 5) as [H5|H5].
  { destruct (ready_short C s Rs H5) as (s' & Es & Es1 & _). rewrite Hst in H5.
    destruct (ready_short C t Rt H5) as (t' & Et & Et1 & _). rewrite Es, Et. cbn. auto. }
  set (h := firstn 5 (stream (rd_rx s))). set (rest := skipn 5 (stream (rd_rx s))).
  assert (Hs : stream (rd_rx s) = h ++ rest) by (symmetry; apply firstn_skipn).
  assert (Ht : stream (rd_rx t) = h ++ rest) by (rewrite <- Hst; exact Hs).
  assert (Hl : length h = 5) by (unfold h; rewrite firstn_length; lia).
  clearbody h rest.
  destruct (hdr_decode_total h Hl) as [Hkt|Hkt].
  2:{ assert (Hn : ~ known_type h) by (unfold known_type; congruence).
      destruct (ready_badtype C s h rest Rs Hs Hl Hn) as (rx1 & A1 & A2 & ->).
      destruct (ready_badtype C t h rest Rt Ht Hl Hn) as (rx2 & B1 & B2 & ->). cbn [fst snd]. split; [reflexivity|].
      left. repeat split; cbn [rd_buf rd_decoded rd_pending rd_rx rd_ks]; auto; congruence. }
  destruct (hdr_content_length_ok h Hl) as (n & En & Env & _).
  destruct (Nat.ltb_spec (length (rd_buf s)) n) as [Hn|Hn].
  { destruct (ready_toolong C s h rest n Rs Hs Hl Hkt En Hn) as (rx1 & A1 & A2 & ->). rewrite Hb in Hn.
    destruct (ready_toolong C t h rest n Rt Ht Hl Hkt En Hn) as (rx2 & B1 & B2 & ->). cbn [fst snd]. split; [reflexivity|].
    left. repeat split; cbn [rd_buf rd_decoded rd_pending rd_rx rd_ks]; auto; congruence. }
  destruct (Nat.ltb_spec (length rest) n) as [Hc|Hc].
  { destruct (ready_cut C s h rest n Rs Hs Hl Hkt En Hn Hc) as (s' & Es & Es1 & _). rewrite Hb in Hn.
    destruct (ready_cut C t h rest n Rt Ht Hl Hkt En Hn Hc) as (t' & Et & Et1 & _). rewrite Es, Et. cbn. auto. }
  set (f := firstn n rest). set (more := skipn n rest).
  assert (Hr : rest = f ++ more) by (symmetry; apply firstn_skipn).
  assert (Hfl : length f = n) by (unfold f; rewrite firstn_length; lia).
  clearbody f more. subst rest. assert (Hf : framed h f) by (split; [exact Hl|lia]).
  destruct (ready_frame C s h f more Rs Hs Hf Hkt ltac:(lia)) as (rx1 & A1 & A2 & ->).
  destruct (ready_frame C t h f more Rt Ht Hf Hkt ltac:(lia)) as (rx2 & B1 & B2 & ->).
  assert (Hpl : place t (length f) = place s (length f)) by (unfold place; now rewrite Hb, Hdd).
  rewrite Hpl, <- Hk.
  assert (Hfit : place s (length f) + length f <= length (rd_buf s)).
  { unfold place. destruct (Nat.ltb_spec (length (rd_buf s)) (rd_decoded s + length f)); lia. }
  destruct (sr_decode _ _ _ _ _) as [[rec tr']|e|x| |]; cbn [fst snd omap]; (split; [reflexivity|]); left;
    (repeat split); cbn [rd_buf rd_decoded rd_pending rd_rx rd_ks]; auto; try (rewrite !splice_length; lia); congruence.
Qed.

(** Whatever the bytes are, and however often one reads (also after errors), the results
    do not depend on how the transport cuts the stream. *)
Theorem C16_chunking : forall C n s t, same_stream s t -> fst (reads C n s) = fst (reads C n t).
Proof.
  intros C n s t H. assert (G : same_stream s t \/ rd_rx s = [] /\ rd_rx t = []) by (left; exact H). clear H.
  revert s t G. induction n as [|n IH]; intros s t G; [reflexivity|]. rewrite !reads_S. cbn [fst].
  destruct G as [G|[G1 G2]].
  - apply (same_stream_step C) in G as [E1 E2]. f_equal; [exact E1|]. now apply IH.
  - rewrite (empty_read C s G1), (empty_read C t G2). cbn [fst snd]. f_equal. apply IH. now right.
Qed.

(** A record longer than the read buffer is refused. *)
Theorem C16_too_long : forall C s h rest,
  rd_pending s = 0 -> rd_decoded s <= length (rd_buf s) -> chunked (rd_rx s) ->
  stream (rd_rx s) = h ++ rest -> length h = 5 -> type_known h ->
  (N.of_nat (length (rd_buf s)) < be_val (skipn 3 h))%N ->
  fst (rd_read C s) = Err InsufficientSpace.
Proof.
  intros C s h rest Hp Hd Hc Hs Hl Hk Hn.
  destruct (hdr_content_length_ok h Hl) as (n & En & Env & _).
  destruct (ready_toolong C s h rest n) as (rx' & _ & _ & ->); auto; [repeat split; assumption|now apply type_known_ok|lia].
Qed.

(** An unknown record type is refused; a stream that ends inside a record is an I/O error. *)
Theorem C16_unknown_type : forall C s h rest,
  rd_pending s = 0 -> rd_decoded s <= length (rd_buf s) -> chunked (rd_rx s) ->
  stream (rd_rx s) = h ++ rest -> length h = 5 -> ~ type_known h ->
  fst (rd_read C s) = Err InvalidRecord.
Proof.
  intros C s h rest Hp Hd Hc Hs Hl Hk.
  destruct (ready_badtype C s h rest) as (rx' & _ & _ & ->); auto; [repeat split; assumption|].
  intros Hn. apply Hk. now apply known_type_inv.
Qed.

Theorem C16_truncated : forall C s h rest,
  rd_pending s = 0 -> rd_decoded s <= length (rd_buf s) -> chunked (rd_rx s) ->
  stream (rd_rx s) = firstn 5 h ++ rest -> length h <= 5 ->
  (length h = 5 -> type_known h /\ (be_val (skipn 3 h) <= N.of_nat (length (rd_buf s)))%N /\
                   (N.of_nat (length rest) < be_val (skipn 3 h))%N) ->
  (length h < 5 -> rest = []) ->
  fst (rd_read C s) = Err IoError.
Proof.
  intros C s h rest Hp Hd Hc Hs Hl H5 Hlt. assert (R : ready s) by (repeat split; assumption).
  rewrite firstn_all2 in Hs by exact Hl. destruct (Nat.eq_dec (length h) 5) as [E|E].
  - destruct (H5 E) as (Hk & Hn1 & Hn2). destruct (hdr_content_length_ok h E) as (n & En & Env & _).
    destruct (ready_cut C s h rest n) as (s' & -> & _); auto; [now apply type_known_ok|lia|lia].
  - rewrite (Hlt ltac:(lia)), app_nil_r in Hs. destruct (ready_short C s R) as (s' & -> & _); [rewrite Hs; lia|reflexivity].
Qed.

(** C17.  A transport error or a cancellation before the first byte of a record loses nothing:
    the reader is as it was. *)
Theorem C17_boundary_partial : forall C s e rx',
  rd_rx s = e :: rx' -> (e = RxCancel \/ exists k, e = RxErr k) ->
  snd (rd_read C s) = mk_rdst (rd_buf s) (rd_decoded s) (rd_pending s) rx' (rd_ks s) /\
  fst (rd_read C s) = match e with RxErr k => Err (Io k) | _ => Cancelled end.
Proof.
  intros C s e rx' Hs He. unfold rd_read, next_record_header, bind, on_rx, rx_read_some, map_err, rx_read. rewrite Hs.
  destruct He as [-> | [k ->]]; cbn; auto.
Qed.

(** In the middle of a record it does lose data: the same bytes, delivered with a transport
    error in between, make the next read misinterpret the rest of the record.  Here the
    record has a body of one byte, and the error strikes between the header and the body. *)
Theorem C17_refuted :
  exists s rec k, chunked (rd_rx s) /\ stream (rd_rx s) = rec /\ 0 < k < length rec /\
    (exists d, fst (reads toy 1 s) = [Ok d]) /\
    let t := mk_rdst (rd_buf s) (rd_decoded s) (rd_pending s) [RxData (firstn k rec); RxErr 7%N; RxData (skipn k rec)] (rd_ks s) in
    fst (reads toy 3 t) = [Err (Io 7%N); Err IoError; Err IoError].
Proof.
  set (rec := [x17; x03; x03; x00; x01; xaa]).
  exists (rd_new (zeros 16) [RxData rec] (ks_r (ks_new toy))), rec, 5.
  split; [repeat constructor; eexists; split; [reflexivity|discriminate]|]. split; [reflexivity|]. split; [cbn; lia|].
  split; [eexists|]; vm_compute; reflexivity.
Qed.

(** It can even make the next read panic: an established connection, a record announced
    with 200 bytes of which 150 arrive before a transport error, then another record. *)
Definition interrupted : list rx_event :=
  [RxData (rfc_header 200 ++ zeros 150); RxErr 7%N; RxData (rfc_header 200 ++ zeros 200)].

Theorem C17_panic_refuted :
  exists c k, opened_conn 300 300 interrupted silent = Ok (Ok tt, c) /\
    map snd (fst (run toy [OpRead (zeros 4); OpRead (zeros 4)] c)) = [Err (Io k); Panic PSlice].
Proof.
  assert (E : match opened_conn 300 300 interrupted silent with
              | Ok (Ok tt, c) => match map snd (fst (run toy [OpRead (zeros 4); OpRead (zeros 4)] c)) with
                                 | [Err (Io _); Panic PSlice] => true | _ => false end
              | _ => false end = true) by (vm_compute; reflexivity).
  destruct (opened_conn 300 300 interrupted silent) as [[[[]| | | |] c]| | | |]; try discriminate.
  exists c. destruct (map snd _) as [|o1 l1]; try discriminate.
  destruct o1 as [|[]| | |]; try discriminate. destruct l1 as [|o2 l2]; try discriminate.
  destruct o2 as [| |x| |]; try discriminate. destruct x; try discriminate. destruct l2; try discriminate.
  eexists. split; reflexivity.
Qed.

(** ** The hypotheses are met *)

Definition three_frames : list (bytes * bytes) :=
  [(rfc_header 3, [x01; x02; x03]); ([x15; x03; x03; x00; x02], [x01; x00]); (rfc_header 8, zeros 8)].

Example C16_frames_ok : Forall (readable 10) three_frames.
Proof.
  repeat constructor; try (cbn; lia); cbn; tauto.
Qed.

Example C16_case :
  let cut := map (fun b => RxData [b]) (wire_of three_frames) in
  let s := rd_new (zeros 10) cut (ks_r (ks_new toy)) in
  let t := rd_new (zeros 10) [RxData (wire_of three_frames)] (ks_r (ks_new toy)) in
  same_stream s t /\
  map (omap anywhere) (fst (reads toy 3 s)) =
    [Ok (SR_AppData (rfc_header 3) 0 (cb_wrap_with_pos [x01; x02; x03] 3));
     Ok (SR_Alert AL_Warning AD_CloseNotify);
     Ok (SR_AppData (rfc_header 8) 0 (cb_wrap_with_pos (zeros 8) 8))].
Proof.
  intros cut s t. split; [|vm_compute; reflexivity].
  unfold same_stream, s, t, rd_new. cbn [rd_buf rd_decoded rd_pending rd_rx rd_ks].
  repeat split; try reflexivity; try lia.
  - unfold cut, chunked. apply Forall_map. apply Forall_forall. intros b _. eexists. split; [reflexivity|discriminate].
  - repeat constructor. eexists. split; [reflexivity|discriminate].
Qed.

Example C17_case : rd_read toy (rd_new (zeros 10) [RxCancel; RxData [x17]] (ks_r (ks_new toy)))
  = (Cancelled, rd_new (zeros 10) [RxData [x17]] (ks_r (ks_new toy))).
Proof. vm_compute. reflexivity. Qed.

Print Assumptions C16_in_order.
Print Assumptions C16_chunking.
Print Assumptions C16_too_long.
Print Assumptions C16_unknown_type.
Print Assumptions C16_truncated.
Print Assumptions C17_boundary_partial.
Print Assumptions C17_refuted.
Print Assumptions C17_panic_refuted.
