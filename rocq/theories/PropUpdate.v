(** * C68: key updates

    RFC 8446 section 4.6.3: "The KeyUpdate handshake message is used to indicate that the sender is updating its sending
    cryptographic keys.  [...]  Implementations that receive a KeyUpdate [...] MUST update its receiving keys", and with
    update_requested "the receiver MUST send a KeyUpdate of its own".  Section 5.5 limits what may be sent with one key; for
    AES-GCM about 2^24.5 full-size records.

    The code has neither direction. *)
From Coq Require Import String List NArith Arith Bool Lia ZArith.
From Coq.Strings Require Import Byte.
From Coq Require Import ZifyBool ZifyNat ZifyN.
From Verif Require Import Base ParseBuffer Buffer Codes Extensions Crypto KeySchedule Config Handshake Record WriteBuffer
  Transport RecordReader ReadBuffer Connection Api BaseProofs ParseProofs SpecWire SpecCodes SpecMessages SpecKeys SpecRecord SpecRead
  KeyProofs RecordProofs SpecSend SendProofs SpecSession HsProofs ConnProofs FrameProofs PropFrame DecryptProofs FlagProofs ReadProofs RecvProofs ServeProofs
  Loops SpecLoops SpecCut PropCut SpecUpdate Toy ToyRun PropSession PropSend PropRead PropRecv.
Import ListNotations.
Local Open Scope list_scope.

(** ** Receiving *)

Lemma update_length b : length (key_update b) = 5.
Proof. destruct b; reflexivity. Qed.

(** The call that meets a KeyUpdate ends with [Unimplemented]; the keys, the record number and the writing side are as before. *)
Lemma update_step C L c o req pad rest : crypto_ok C -> waiting C L c -> waits o = true ->
  incoming c = rfc_record C (read_key c) (read_iv c) (next_seq c) ty_handshake (key_update req) pad ++ rest ->
  22 + pad <= room c -> (N.of_nat (22 + pad) < 65536)%N -> (next_seq c < u64_max)%N ->
  exists c', step C o c = (Err Unimplemented, c') /\ unchanged C L c c' rest.
Proof.
  intros HC Hi Hw Hin Hroom Hsz Hmax.
  assert (Hlen : length (rfc_inner ty_handshake (key_update req) pad) + tag_len C = 22 + pad).
  { rewrite rfc_inner_length, update_length, (ok_tag_len C HC). lia. }
  rewrite <- sealed_is_record in Hin. rewrite <- Hlen in Hroom, Hsz.
  destruct (sealed_waiting C L c o _ rest HC Hi Hw Hin Hroom Hsz) as (o1 & e & s' & d' & op' & Hf & He & Hr & Hs & Hl & _ & _ & _ & _ & Herr & _).
  assert (Hmax' : (k_counter (rkey c) < u64_max)%N) by exact Hmax.
  pose proof (unpad_inner ty_handshake (key_update req) pad ltac:(discriminate)) as Hunp.
  assert (Hh : forall tr, hs_pass C (S (length (key_update req))) tr (pb_new (key_update req)) = Err Unimplemented) by (intros; destruct req; vm_compute; reflexivity).
  assert (G : o1 = Err Unimplemented /\ e = Kept).
  { clear Hin Hroom Hsz Hlen. remember (rfc_inner ty_handshake (key_update req) pad) as inner eqn:Ei. clear Ei.
    inversion Hf; subst; try (exfalso; congruence || lia || discriminate Hunp);
    match goal with H : rfc_unpad _ = Some (?t0, ?c0) |- _ => rewrite Hunp in H; inversion H; subst t0 c0 end; try discriminate; auto;
    try (rewrite Hh in *; try discriminate; intuition congruence). }
  destruct G as [-> ->]. exists (with_rd c s' d' op'). specialize (Herr _ eq_refl). split; [exact Herr|].
  exact (kept_unchanged C L c o _ s' d' op' rest HC Hi Hw Herr He Hr Hs Hl).
Qed.

(** A server that changes its keys is lost.  Whatever it sends after its KeyUpdate, protected with its new keys (or with any
    others): unless a record opens, by accident, with the old key and the number that the KeyUpdate had, each call that waits for
    data ends with an error - first [Unimplemented], then [CryptoError] for ever.  No data comes through; the client does not
    answer, and it still believes that the session is open. *)
Theorem C68_update_refuted : forall C L c req pad recs rest ops, crypto_ok C -> waiting C L c ->
  incoming c = rfc_record C (read_key c) (read_iv c) (next_seq c) ty_handshake (key_update req) pad ++ forged_wire recs ++ rest ->
  22 + pad <= room c -> (N.of_nat (22 + pad) < 65536)%N -> (next_seq c < u64_max)%N ->
  Forall (fun '(h, f) => framed h f /\ hd_error h = Some ty_data /\ length f <= room c /\
     rfc_open C (read_key c) (read_iv c) (next_seq c) h f = None) recs ->
  Forall (fun o => waits o = true) ops -> length ops = 1 + length recs ->
  exists c', run C ops c = (combine ops (Err Unimplemented :: repeat (Err CryptoError) (length recs)), c') /\ unchanged C L c c' rest.
Proof.
  assert (H : forall C L recs c rest ops, crypto_ok C -> waiting C L c -> incoming c = forged_wire recs ++ rest ->
    Forall (fun '(h, f) => framed h f /\ hd_error h = Some ty_data /\ length f <= room c /\
     rfc_open C (read_key c) (read_iv c) (next_seq c) h f = None) recs ->
    Forall (fun o => waits o = true) ops -> length ops = length recs ->
    exists c', run C ops c = (combine ops (repeat (Err CryptoError) (length recs)), c') /\ unchanged C L c c' rest).
  { intros C L recs. induction recs as [|[h f] recs IH]; intros c rest ops HC Hw Hin Hr Ho Hl.
    - destruct ops; [|discriminate Hl]. exists c. split; [reflexivity|]. repeat split; try reflexivity; try apply Hw. exact Hin.
    - destruct ops as [|o ops]; [discriminate Hl|]. apply Forall_cons_iff in Hr as [(R1 & R2 & R3 & R4) Hr]. apply Forall_cons_iff in Ho as [Ho1 Ho].
      cbn [forged_wire] in Hin. rewrite <- !app_assoc in Hin.
      destruct (C32_forged C L c o h f _ HC Hw Ho1 Hin R1 R2 R3 R4) as (c1 & E & U1 & U2 & U3 & U4 & U5 & U6 & U7).
      destruct (IH c1 rest ops HC U1 U2) as (c' & Er & W1 & W2 & W3 & W4 & W5 & W6 & W7); [rewrite U3, U4, U5, U6; exact Hr|exact Ho|cbn in Hl; lia|].
      exists c'. rewrite (run_cons' C o ops c _ c1 E). assert (Es : stops o (Err CryptoError) = false) by (destruct o; (discriminate Ho1 || reflexivity)).
      rewrite Es, Er. split; [reflexivity|]. repeat split; try apply W1; congruence. }
  intros C L c req pad recs rest ops HC Hw Hin Hroom Hsz Hmax Hr Ho Hl.
  destruct ops as [|o ops]; [discriminate Hl|]. apply Forall_cons_iff in Ho as [Ho1 Ho].
  destruct (update_step C L c o req pad _ HC Hw Ho1 Hin Hroom Hsz Hmax) as (c1 & E & U1 & U2 & U3 & U4 & U5 & U6 & U7).
  destruct (H C L recs c1 rest ops HC U1 U2) as (c' & Er & W1 & W2 & W3 & W4 & W5 & W6 & W7); [rewrite U3, U4, U5, U6; exact Hr|exact Ho|cbn in Hl; lia|].
  exists c'. rewrite (run_cons' C o ops c _ c1 E). assert (Es : stops o (Err Unimplemented) = false) by (destruct o; (discriminate Ho1 || reflexivity)).
  rewrite Es, Er. split; [reflexivity|]. repeat split; try apply W1; congruence.
Qed.

(** ** Sending *)

(** The client itself never changes its keys: it sends any number of records (short of 2^64, where the record numbers end)
    with one key, all of the largest size if the application wants. *)
Theorem C68_usage_refuted : forall C L c d n, crypto_ok C -> established C L c -> 134 <= L -> transport_succeeds c ->
  0 < length d <= L - 133 -> (N.of_nat (n * length d) < u64_max)%N ->
  exists os c', program C (write_and_flush (repeat d n)) c = (os, c') /\ failure os = None /\
    sent_log c' = sent_log c ++ flushed_records C (write_key c) (write_iv c) 0 (repeat d n).
Proof.
  intros C L c d n HC He HL Ht Hd Hn. destruct (program C (write_and_flush (repeat d n)) c) as [os c'] eqn:E.
  assert (Hlen : length (concat (repeat d n)) = n * length d) by (clear; induction n as [|n IH]; [reflexivity|cbn [repeat concat]; rewrite app_length, IH; lia]).
  destruct (C64_records C L c (repeat d n) os c' HC He HL Ht ltac:(rewrite Hlen; exact Hn) E) as (Hf & pss & Hp & Hs).
  exists os, c'. split; [reflexivity|]. split; [exact Hf|]. rewrite Hs. do 2 f_equal.
  assert (Hone : pieces (L - 133) d [d]).
  { split; [apply app_nil_r|]. split; [constructor; [exact Hd|constructor]|]. intros ps1 p Ep.
    change [d] with ([] ++ [d]) in Ep. apply app_inj_tail in Ep as [<- _]. constructor. }
  clear - Hp Hone HL. revert pss Hp. induction n as [|n IH]; intros pss Hp; cbn [repeat] in *; inversion Hp as [|x y l l' Hx Hl]; subst; [reflexivity|].
  destruct (C64_pieces (L - 133) d y ltac:(lia) Hx) as [_ Hu]. rewrite <- (Hu _ Hone). cbn [concat app]. f_equal. apply IH. exact Hl.
Qed.

(** ** Concrete cases *)

(** The server of ToyRun.v changes its keys as the RFC says and then sends "hi" and "!" with the new ones. *)
Definition srv_secret : bytes := Eval vm_compute in ap_traffic None plain_hello "s ap traffic" empty_ee.
Definition next_secret : bytes := Eval vm_compute in some (rfc_next_secret toy srv_secret).
Definition next_key : bytes := Eval vm_compute in some (rfc_key toy next_secret).
Definition next_iv : bytes := Eval vm_compute in some (rfc_iv toy next_secret).
Definition after_1 : bytes * bytes := Eval vm_compute in
  let r := rfc_record toy next_key next_iv 0 ty_data [x68; x69] 0 in (firstn 5 r, skipn 5 r).
Definition after_2 : bytes * bytes := Eval vm_compute in
  let r := rfc_record toy next_key next_iv 1 ty_data [x21] 0 in (firstn 5 r, skipn 5 r).
Definition updating : bytes := Eval vm_compute in
  toy_data 0 ty_handshake (key_update true) 0 ++ forged_wire [after_1; after_2].

Example C68_update_case : let c := conn_in updating in
  waiting toy 300 c /\ rfc_key toy srv_secret = Some (read_key c) /\ rfc_next_keys toy srv_secret next_key next_iv /\
  exists c', run toy [OpFillBuf; OpRead (zeros 4); OpRead (zeros 4)] c =
    ([(OpFillBuf, Err Unimplemented); (OpRead (zeros 4), Err CryptoError); (OpRead (zeros 4), Err CryptoError)], c') /\ unchanged toy 300 c c' [].
Proof.
  cbv zeta. split; [apply conn_in_waiting|]. split; [vm_compute; reflexivity|]. split.
  { exists next_secret. split; [vm_compute; reflexivity|]. split; vm_compute; reflexivity. }
  apply (C68_update_refuted toy 300 (conn_in updating) true 0 [after_1; after_2] []).
  - exact toy_ok.
  - apply conn_in_waiting.
  - vm_compute. reflexivity.
  - apply Nat.leb_le. vm_compute. reflexivity.
  - reflexivity.
  - reflexivity.
  - assert (Hf : forall a, In a [after_1; after_2] -> let '(h, f) := a in
      framed h f /\ hd_error h = Some ty_data /\ length f <= room (conn_in updating) /\
      rfc_open toy (read_key (conn_in updating)) (read_iv (conn_in updating)) (next_seq (conn_in updating)) h f = None).
    { intros a [<-|[<-|[]]]; (split; [split; vm_compute; reflexivity|]); (split; [reflexivity|]); (split; [apply Nat.leb_le; vm_compute; reflexivity|vm_compute; reflexivity]). }
    constructor; [exact (Hf _ (or_introl eq_refl))|]. constructor; [exact (Hf _ (or_intror (or_introl eq_refl)))|constructor].
  - repeat constructor.
  - reflexivity.
Qed.

(** A hundred million full-size records with one key. *)
Example C68_usage_case : forall n, N.of_nat n = 100000000%N ->
  exists os c', program toy (write_and_flush (repeat (repeat x41 167) n)) conn_300 = (os, c') /\
  failure os = None /\ sent_log c' = sent_log conn_300 ++ flushed_records toy (write_key conn_300) (write_iv conn_300) 0 (repeat (repeat x41 167) n).
Proof.
  intros n Hn. apply (C68_usage_refuted toy 300); [exact toy_ok|apply conn_300_established|lia|split; constructor|rewrite repeat_length; lia|].
  rewrite repeat_length, Nat2N.inj_mul, Hn. reflexivity.
Qed.

Print Assumptions C68_update_refuted.
Print Assumptions C68_usage_refuted.
