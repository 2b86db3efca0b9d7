(** * C56: how the transport cuts the incoming bytes is not observable *)
From Coq Require Import String List NArith Arith Bool Lia ZArith.
From Coq.Strings Require Import Byte.
From Verif Require Import Base ParseBuffer Buffer Codes Crypto KeySchedule Config Handshake Record WriteBuffer
  Transport RecordReader Connection Api SpecWire SpecCodes SpecMessages SpecKeys SpecRecord SpecRead SpecSend SendProofs FrameProofs ReadProofs RecvProofs
  SpecOpen SpecSession Toy ToyRun PropSession PropRead PropRecv SpecHandshake SpecReceiver ReceiverProofs ListenProofs PropReceiver TermProofs SpecChunk ChunkProofs.
Import ListNotations.
Local Open Scope list_scope.

(** Two new connections that differ in nothing but how the bytes to come are cut live the same session, exactly: the same results of [open]
    and of every other call, the same records handed to the transport, the same state in the end. *)
Theorem C56_sessions : forall V C (l : list (call V)) rbuf wbuf rx1 rx2 tx c1 c2,
  (forall p cfg v, In (COpen p cfg v) l -> provider_returns p) -> chunked rx1 -> chunked rx2 -> stream rx1 = stream rx2 ->
  cn_new C rbuf wbuf rx1 tx = Ok c1 -> cn_new C rbuf wbuf rx2 tx = Ok c2 ->
  let (rs1, c1') := session C l c1 in let (rs2, c2') := session C l c2 in
  rs1 = rs2 /\ tx_log (wh_tx (cn_wh c1')) = tx_log (wh_tx (cn_wh c2')) /\ c2' = with_rx (rd_rx (cn_rd c2')) c1' /\ incoming c1' = incoming c2'.
Proof.
  intros V C l rbuf wbuf rx1 rx2 tx c1 c2 Hl H1 H2 Hs E1 E2.
  assert (HF : Forall call_returns l) by (apply Forall_forall; intros [p cfg v|o] Hx; [exact (Hl p cfg v Hx)|exact I]).
  destruct (session_twin C l c1 c2 (new_twin C rbuf wbuf rx1 rx2 tx c1 c2 H1 H2 Hs E1 E2) HF) as [E T].
  destruct (session C l c1) as [rs1 c1']. destruct (session C l c2) as [rs2 c2']. cbn [fst snd] in E, T.
  destruct (twc_fields _ _ T) as (_ & Ew & _). split; [exact E|]. split; [now rewrite Ew|]. split; [apply T|]. symmetry. apply (proj1 T).
Qed.

(** In particular it makes no difference whether each read returns one byte or as much as it has room for. *)
Theorem C56_bytewise : forall V C (l : list (call V)) rbuf wbuf w tx c1 c2,
  (forall p cfg v, In (COpen p cfg v) l -> provider_returns p) -> w <> [] ->
  cn_new C rbuf wbuf [RxData w] tx = Ok c1 -> cn_new C rbuf wbuf (bytewise w) tx = Ok c2 ->
  fst (session C l c1) = fst (session C l c2) /\ tx_log (wh_tx (cn_wh (snd (session C l c1)))) = tx_log (wh_tx (cn_wh (snd (session C l c2)))).
Proof.
  intros V C l rbuf wbuf w tx c1 c2 Hl Hw E1 E2.
  assert (K : chunked (bytewise w) /\ stream (bytewise w) = w).
  { clear. induction w as [|b w [IH1 IH2]]; [split; [constructor|reflexivity]|]. split.
    - constructor; [exists [b]; split; [reflexivity|discriminate]|exact IH1].
    - cbn [bytewise map]. rewrite stream_cons. fold (bytewise w). now rewrite IH2. }
  destruct K as [K1 K2].
  pose proof (C56_sessions V C l rbuf wbuf [RxData w] (bytewise w) tx c1 c2 Hl) as H.
  specialize (H ltac:(constructor; [exists w; split; [reflexivity|exact Hw]|constructor]) K1).
  rewrite K2, stream_cons in H. cbn [stream map concat] in H. rewrite app_nil_r in H. specialize (H eq_refl E1 E2).
  destruct (session C l c1), (session C l c2). cbn [fst snd]. split; apply H.
Qed.

(** The same in the middle of a session. *)
Theorem C56_in_use : forall V C L (l : list (call V)) c rx, crypto_ok C ->
  (forall p cfg v, In (COpen p cfg v) l -> provider_returns p) -> listening C L c -> chunked rx -> stream rx = incoming c ->
  let (rs1, c1') := session C l c in let (rs2, c2') := session C l (with_rx rx c) in
  rs1 = rs2 /\ tx_log (wh_tx (cn_wh c1')) = tx_log (wh_tx (cn_wh c2')) /\ c2' = with_rx (rd_rx (cn_rd c2')) c1' /\ incoming c1' = incoming c2'.
Proof.
  intros V C L l c rx HC Hl Hc H2 Hs.
  assert (HF : Forall call_returns l) by (apply Forall_forall; intros [p cfg v|o] Hx; [exact (Hl p cfg v Hx)|exact I]).
  assert (Ht : twc c (with_rx rx c)).
  { destruct (listening_mirrors C L c HC Hc) as [Hr Hset]. split; [|reflexivity].
    split; [reflexivity|]. split; [apply Hr|]. split; [exact Hset|]. split; [exact H2|exact Hs]. }
  destruct (session_twin C l c (with_rx rx c) Ht HF) as [E T].
  destruct (session C l c) as [rs1 c1']. destruct (session C l (with_rx rx c)) as [rs2 c2']. cbn [fst snd] in E, T.
  destruct (twc_fields _ _ T) as (_ & Ew & _). split; [exact E|]. split; [now rewrite Ew|]. split; [apply T|]. symmetry. apply (proj1 T).
Qed.

(** ** Non-vacuity *)

Definition cut_calls : list (call unit) :=
  COpen plain_provider small_config tt :: map COp [OpFillBuf; OpRead (zeros 1); OpWrite [x41]; OpFlush; OpConsume 7; OpFillBuf; OpConsume 1; OpFillBuf; OpFillBuf; OpClose].
Definition cut_wire : bytes := Eval vm_compute in plain_flight ++ heard.
Definition cut_new (rx : list rx_event) : conn := match cn_new toy (zeros 400) (zeros 300) rx silent with Ok c => c | _ => no_conn end.

Example C56_case :
  (forall p cfg v, In (COpen p cfg v) cut_calls -> provider_returns p) /\ cut_wire <> [] /\
  cn_new toy (zeros 400) (zeros 300) [RxData cut_wire] silent = Ok (cut_new [RxData cut_wire]) /\
  cn_new toy (zeros 400) (zeros 300) (bytewise cut_wire) silent = Ok (cut_new (bytewise cut_wire)) /\
  fst (session toy cut_calls (cut_new (bytewise cut_wire))) =
    [A_open (Ok tt); A_op (Ok (VBytes [x68; x69])); A_op (Ok (VRead 1 [x68])); A_op (Ok (VCount 1)); A_op (Ok VUnit); A_op (Ok VUnit);
     A_op (Ok (VBytes [x21])); A_op (Ok VUnit); A_op (Err CryptoError); A_op (Ok (VBytes [x6f; x6b])); A_op (Ok VUnit)].
Proof.
  split. { intros p cfg v Hin. cbn in Hin. destruct Hin as [E|Hin]; [|repeat destruct Hin as [E|Hin]; discriminate || contradiction].
    injection E as <- _ _. repeat split; intros; discriminate. }
  split; [discriminate|]. split; [vm_compute; reflexivity|]. split; [vm_compute; reflexivity|]. vm_compute. reflexivity.
Qed.

(** That no call fails in the middle of a record is needed: after an error of the transport inside a record the cuts show.  The same bytes
    and the same error at the same place, with different cuts; the last call gives InvalidRecord or CryptoError. *)
Definition cut_before : bytes := [x17; x03; x03; x00; x08; x01; x02; x03].
Definition cut_after : bytes := [x17; x03; x03; x00; x04; x70; x17; x03; x03; x00; x00; x00; x00].
Theorem C56_errors_refuted : exists C L rx1 rx2 c1 c2 ops, crypto_ok C /\ established C L c1 /\ established C L c2 /\ c2 = with_rx rx2 c1 /\
  rd_rx (cn_rd c1) = rx1 /\ stream rx1 = stream rx2 /\
  rx1 = [RxData cut_before; RxErr 1%N; RxData cut_after] /\ rx2 = RxData cut_before :: RxErr 1%N :: bytewise cut_after /\
  map snd (fst (run C ops c1)) <> map snd (fst (run C ops c2)).
Proof.
  set (rx1 := [RxData cut_before; RxErr 1%N; RxData cut_after]). set (rx2 := RxData cut_before :: RxErr 1%N :: bytewise cut_after).
  exists toy, 300, rx1, rx2, (toy_conn rx1), (toy_conn rx2), [OpFillBuf; OpFillBuf; OpFillBuf].
  split; [exact toy_ok|]. split; [apply toy_conn_established|]. split; [apply toy_conn_established|]. split; [reflexivity|]. split; [reflexivity|]. split; [reflexivity|].
  split; [reflexivity|]. split; [reflexivity|]. vm_compute. discriminate.
Qed.

Print Assumptions C56_sessions.
Print Assumptions C56_bytewise.
Print Assumptions C56_in_use.
Print Assumptions C56_errors_refuted.
