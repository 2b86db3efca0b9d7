(** * What was in the buffers before is not observable *)
From Coq Require Import String List NArith Arith Bool Lia.
From Coq.Strings Require Import Byte.
From Verif Require Import Base ParseBuffer Buffer Codes Extensions Crypto KeySchedule Config Handshake Record WriteBuffer
  Transport RecordReader ReadBuffer Connection Api SpecSend SpecWire SpecRead SpecOpen SpecChunk SpecRecord SpecStale ChunkProofs StaleProofs Toy ToyRun PropRead PropReceiver PropChunk.
Import ListNotations.
Local Open Scope list_scope.

(** The buffers given to [new] may contain anything - zeros, the remains of an earlier connection, somebody else's secrets -:
    only their lengths count.  No calls of the application, whatever the peer and the transport do, show a difference. *)
Theorem C78_new : forall V C r1 r2 w1 w2 rx tx c1, length r1 = length r2 -> length w1 = length w2 -> cn_new C r1 w1 rx tx = Ok c1 ->
  exists c2, cn_new C r2 w2 rx tx = Ok c2 /\ forall l : list (call V), seen_outside C l c1 = seen_outside C l c2.
Proof.
  intros V C r1 r2 w1 w2 rx tx c1 Hr Hw E1.
  assert (E2 : exists c2, cn_new C r2 w2 rx tx = Ok c2).
  { unfold cn_new, wb_new in *. rewrite <- Hw. destruct (_ <? _); [|discriminate]. cbn [obind]. eexists. reflexivity. }
  destruct E2 as [c2 E2]. exists c2. split; [exact E2|]. intros l.
  destruct (session_stale C l c1 c2 (new_stale C r1 r2 w1 w2 rx tx c1 c2 Hr Hw E1 E2)) as [E R]. unfold seen_outside.
  destruct (session C l c1) as [rs1 d1]. destruct (session C l c2) as [rs2 d2]. cbn [fst snd] in E, R. destruct (cc_fields d1 d2 R) as (_ & _ & _ & _ & _ & Ex & _).
  destruct R as (_ & (_ & _ & Et & _) & _). unfold sent_log. now rewrite E, Ex, Et.
Qed.

(** The same at any later moment: besides the plaintext not taken yet, the part of a record that has arrived and the plaintext
    not sent yet, nothing in the buffers has any influence.  What the application has taken is gone. *)
Theorem C78_in_use : forall V C c rb wb (l : list (call V)),
  same_on (read_live c) (rd_buf (cn_rd c)) rb -> same_on (write_live c) (wb_buf (wh_wb (cn_wh c))) wb ->
  seen_outside C l c = seen_outside C l (with_buffers rb wb c).
Proof.
  intros V C c rb wb l [Hl1 H1] [Hl2 H2]. set (c2 := with_buffers rb wb c).
  assert (R : cc c c2).
  { split; [|split; [|reflexivity]].
    - split; [reflexivity|]. cbn [fst snd]. repeat split; [exact Hl1|]. intros p [[Hp|[]]|Hp]; apply H1; [left|right]; exact Hp.
    - split; [|repeat split]. repeat split; [exact Hl2|]. intros p Hp. apply H2. exact Hp. }
  destruct (session_stale C l c c2 R) as [E R']. unfold seen_outside.
  destruct (session C l c) as [rs1 d1]. destruct (session C l c2) as [rs2 d2]. cbn [fst snd] in E, R'. destruct (cc_fields d1 d2 R') as (_ & _ & _ & _ & _ & Ex & _).
  destruct R' as (_ & (_ & _ & Et & _) & _). unfold sent_log. now rewrite E, Ex, Et.
Qed.

(** ** Concrete cases *)

(** The session of [C56_case] - a handshake, reads, writes, a forged record, a close - on buffers full of 0xAA instead of zeros. *)
Example C78_case : exists c2, cn_new toy (repeat xaa 400) (repeat xaa 300) (bytewise cut_wire) silent = Ok c2 /\
  fst (fst (seen_outside toy cut_calls c2)) =
    [A_open (Ok tt); A_op (Ok (VBytes [x68; x69])); A_op (Ok (VRead 1 [x68])); A_op (Ok (VCount 1)); A_op (Ok VUnit); A_op (Ok VUnit);
     A_op (Ok (VBytes [x21])); A_op (Ok VUnit); A_op (Err CryptoError); A_op (Ok (VBytes [x6f; x6b])); A_op (Ok VUnit)].
Proof.
  destruct C56_case as (_ & _ & _ & Hn & Ha).
  destruct (C78_new unit toy (zeros 400) (repeat xaa 400) (zeros 300) (repeat xaa 300) (bytewise cut_wire) silent _
              ltac:(unfold zeros; now rewrite !repeat_length) ltac:(unfold zeros; now rewrite !repeat_length) Hn) as (c2 & E2 & H).
  exists c2. split; [exact E2|]. rewrite <- H. unfold seen_outside. destruct (session toy cut_calls (cut_new (bytewise cut_wire))) as [rs c']. exact Ha.
Qed.

(** Everything but the positions from [lo] to [hi] overwritten. *)
Definition keep (lo hi : nat) (b : bytes) : bytes := repeat xaa lo ++ sub b lo (hi - lo) ++ repeat xaa (length b - hi).
Lemma keep_same lo hi b : lo <= hi -> hi <= length b -> same_on (fun p => lo <= p < hi) b (keep lo hi b).
Proof.
  intros H1 H2. unfold keep. assert (Ls : length (sub b lo (hi - lo)) = hi - lo) by (unfold sub; rewrite firstn_length, skipn_length; lia).
  split; [rewrite !app_length, !repeat_length, Ls; lia|]. intros p Hp. rewrite nth_error_app2 by (rewrite repeat_length; lia). rewrite repeat_length, nth_error_app1 by (rewrite Ls; lia).
  rewrite <- (firstn_skipn lo b) at 1. rewrite nth_error_app2 by (rewrite firstn_length; lia). rewrite firstn_length, Nat.min_l by lia. unfold sub.
  rewrite <- (firstn_skipn (hi - lo) (skipn lo b)) at 1. rewrite nth_error_app1; [reflexivity|]. rewrite firstn_length, skipn_length. lia.
Qed.

(** In the middle of a session: "hi" arrived and "h" taken, "AB" written and not flushed.  All of both buffers but the "i" and the
    begun record overwritten: the next calls return and send the same. *)
Definition busy_calls : list op := [OpFillBuf; OpConsume 1; OpWrite [x41; x42]].
Definition busy : conn := Eval vm_compute in snd (run toy busy_calls (conn_in (toy_data 0 ty_data [x68; x69] 3))).
Example C78_in_use_case : 
  busy = snd (run toy busy_calls (conn_in (toy_data 0 ty_data [x68; x69] 3))) /\
  (forall p, read_live busy p <-> p = 151) /\ (forall p, write_live busy p <-> p < 7) /\
  (length (rd_buf (cn_rd busy)) = 400 /\ length (wb_buf (wh_wb (cn_wh busy))) = 300) /\
  (forall V (l : list (call V)), seen_outside toy l busy = seen_outside toy l (with_buffers (keep 151 152 (rd_buf (cn_rd busy))) (keep 0 7 (wb_buf (wh_wb (cn_wh busy)))) busy)) /\
  fst (session toy (map COp [OpFillBuf; OpFlush] : list (call unit)) busy) = [A_op (Ok (VBytes [x69])); A_op (Ok VUnit)].
Proof.
  assert (L1 : length (rd_buf (cn_rd busy)) = 400) by (vm_compute; reflexivity). assert (L2 : length (wb_buf (wh_wb (cn_wh busy))) = 300) by (vm_compute; reflexivity).
  assert (R : forall p, read_live busy p <-> p = 151).
  { intros p. unfold read_live. change (d_offset (cn_dec busy) + d_consumed (cn_dec busy)) with 151. change (d_offset (cn_dec busy) + d_len (cn_dec busy)) with 152.
    change (rd_pending (cn_rd busy)) with 0. lia. }
  assert (Wr : forall p, write_live busy p <-> p < 7) by (intros p; unfold write_live; change (wb_pos (wh_wb (cn_wh busy))) with 7; tauto).
  split; [vm_compute; reflexivity|]. split; [exact R|]. split; [exact Wr|]. split; [split; assumption|]. split; [|vm_compute; reflexivity].
  intros V l. apply C78_in_use.
  - destruct (keep_same 151 152 (rd_buf (cn_rd busy)) ltac:(lia) ltac:(rewrite L1; lia)) as [K1 K2]. split; [exact K1|]. intros p Hp. apply K2. pose proof (proj1 (R p) Hp). lia.
  - destruct (keep_same 0 7 (wb_buf (wh_wb (cn_wh busy))) ltac:(lia) ltac:(rewrite L2; lia)) as [K1 K2]. split; [exact K1|]. intros p Hp. apply K2. pose proof (proj1 (Wr p) Hp). lia.
Qed.

Print Assumptions C78_new.
Print Assumptions C78_in_use.
