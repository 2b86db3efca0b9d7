(** * C54: the receiving side of an open connection is a machine over the incoming bytes *)
From Coq Require Import String List NArith Arith Bool Lia ZArith.
From Coq.Strings Require Import Byte.
From Verif Require Import Base ParseBuffer Buffer Codes Crypto KeySchedule Config Handshake Record
  Transport RecordReader Connection Api SpecWire SpecCodes SpecMessages SpecKeys SpecRecord SpecRead SpecSend SendProofs FrameProofs ReadProofs RecvProofs
  SpecSession Toy ToyRun PropSession PropRead PropRecv SpecHandshake SpecComplete SpecFailure SpecReceiver ReceiverProofs ListenProofs.
Import ListNotations.
Local Open Scope list_scope.

(** A connection after [open] and any calls that returned; no part of a record was lost in a call that failed, and the
    transport from here on delivers bytes and then end-of-file. *)
Definition listening (C : crypto) (L : nat) (c : conn) : Prop := in_use C L c /\ at_boundary c /\ steady c.

Lemma listening_mirrors C L c : crypto_ok C -> listening C L c -> mirrors C (incoming c) c.
Proof.
  intros HC (H1 & H2 & H3). split; [exact (in_use_boundary C L c HC H1 H2)|]. split; [exact H3|]. now left.
Qed.

(** After [open] the machine starts with nothing decrypted and record number 0. *)
Theorem C54_start : forall C L c, crypto_ok C -> established C L c -> steady c ->
  listening C L c /\ receiver_of c = mk_receiver true [] 0 (incoming c).
Proof.
  intros C L c HC He Hs. split; [split; [exact (established_in_use C L c He)|split; [exact (established_boundary C L c HC He)|exact Hs]]|].
  destruct (established_recv C L c HC He) as (_ & _ & Hu & Hop & Hk). unfold receiver_of, next_seq. unfold rkey in Hk. now rewrite Hu, Hop, Hk.
Qed.

(** Whatever calls follow: the results of the receiving ones are those of the machine, and so is
    the state in the end. *)
Theorem C54_run : forall C L c ops rs c', crypto_ok C -> listening C L c -> run C ops c = (rs, c') ->
  exists s', listens C (read_key c) (read_iv c) (room c) (receiver_of c) rs s' /\
    (forallb (fun o => negb (is_close o)) ops = true -> Forall returned rs -> s' = receiver_of c').
Proof.
  intros C L c ops rs c' HC Hl H. exact (machine_run C (incoming c) HC ops c rs c' (listening_mirrors C L c HC Hl) H).
Qed.

(** The machine leaves no choice: any history it allows with these calls has the results that the calls had, and ends in the
    state in which the connection is. *)
Theorem C54_determined : forall C L c ops rs c' rs' s', crypto_ok C -> listening C L c -> run C ops c = (rs, c') ->
  listens C (read_key c) (read_iv c) (room c) (receiver_of c) rs' s' -> map fst rs' = map fst rs ->
  same_answers rs rs' /\
  (forallb (fun o => negb (is_close o)) ops = true -> Forall returned rs -> s' = receiver_of c').
Proof.
  intros C L c ops rs c' rs' s' HC Hl H H' E. destruct (C54_run C L c ops rs c' HC Hl H) as (s1 & H1 & Hs1).
  destruct (listens_unique C _ _ _ _ _ _ H1 _ _ H' (eq_sym E)) as [A S]. split; [exact A|].
  intros Hc Hr. rewrite <- (Hs1 Hc Hr). symmetry. apply S. eapply Forall_impl; [|exact Hr]. intros a Ha x Ex. unfold returned in Ha. now rewrite Ex in Ha.
Qed.

(** And it answers every call in every state. *)
Theorem C54_never_stuck : forall C key iv room s o, receives o = true -> exists r s', receive C key iv room s o r s'.
Proof. exact receive_total. Qed.

(** Nothing else matters: two connections with the same keys, buffer size, bytes decrypted, record number and bytes to
    come - in whatever pieces these arrive, whatever happened before - answer a receiving call in the same way. *)
Theorem C54_nothing_else : forall C L1 L2 c1 c2 o, crypto_ok C -> listening C L1 c1 -> listening C L2 c2 -> receives o = true ->
  read_key c1 = read_key c2 -> read_iv c1 = read_iv c2 -> room c1 = room c2 -> receiver_of c1 = receiver_of c2 ->
  fst (step C o c1) = fst (step C o c2) /\
  (returned (o, fst (step C o c1)) -> receiver_of (snd (step C o c1)) = receiver_of (snd (step C o c2))).
Proof.
  intros C L1 L2 c1 c2 o HC H1 H2 Ho E1 E2 E3 E4.
  destruct (step C o c1) as [r1 c1'] eqn:S1. destruct (step C o c2) as [r2 c2'] eqn:S2. cbn [fst snd].
  pose proof (machine_step C _ c1 o r1 c1' HC (listening_mirrors C L1 c1 HC H1) Ho S1) as M1.
  pose proof (machine_step C _ c2 o r2 c2' HC (listening_mirrors C L2 c2 HC H2) Ho S2) as M2.
  rewrite <- E1, <- E2, <- E3, <- E4 in M2.
  assert (R1 : receive C (read_key c1) (read_iv c1) (room c1) (receiver_of c1) o r1 (receiver_of c1')) by (destruct M1 as [(x & -> & M)|[M _]]; [apply M|exact M]).
  assert (R2 : receive C (read_key c1) (read_iv c1) (room c1) (receiver_of c1) o r2 (receiver_of c2')) by (destruct M2 as [(x & -> & M)|[M _]]; [apply M|exact M]).
  destruct (receive_unique _ _ _ _ _ _ _ _ _ _ Ho R1 R2) as [A S]. split; [exact A|]. intros Hr. apply S. intros x ->. exact Hr.
Qed.

(** ** Non-vacuity *)

(** Data, two tickets, an empty record, a forged record, data, an alert, a [close_notify] that is not protected, and what follows it. *)
Definition heard : bytes := Eval vm_compute in
  their_wire ++ forged_one ++ toy_data 4 ty_data [x6f; x6b] 0 ++ toy_data 5 ty_alert [x02; x28] 0 ++
  [x15; x03; x03; x00; x02; x01; x00] ++ [x17].

Definition heard_calls : list op :=
  [OpFillBuf; OpRead (zeros 1); OpWrite [x41]; OpConsume 7; OpReadBuffered [RbPeekAll; RbPop 1] RbDrop; OpFillBuf; OpFillBuf; OpConsume 2; OpFillBuf; OpFillBuf; OpFillBuf; OpRead []].

Definition heard_results : list (outcome tls_error value) :=
  [Ok (VBytes [x68; x69]); Ok (VRead 1 [x68]); Ok (VCount 1); Ok VUnit; Ok (VSlices [[x21]; [x21]]); Err CryptoError; Ok (VBytes [x6f; x6b]); Ok VUnit;
   Err InternalError; Err ConnectionClosed; Err MissingHandshake; Ok (VRead 0 [])].

Example C54_case : let c := conn_in heard in
  listening toy 300 c /\ receiver_of c = mk_receiver true [] 0 heard /\ room c = 400 /\
  map snd (fst (run toy heard_calls c)) = heard_results /\
  Forall returned (fst (run toy heard_calls c)) /\
  receiver_of (snd (run toy heard_calls c)) = mk_receiver false [] 5 [x17].
Proof.
  cbv zeta. split; [destruct (conn_in_waiting heard) as (H1 & _ & _ & H4 & H5); split; [exact H1|split; assumption]|].
  split; [vm_compute; reflexivity|]. split; [reflexivity|].
  destruct (run toy heard_calls (conn_in heard)) as [rs c'] eqn:E. cbn [fst snd].
  assert (G : map snd rs = heard_results /\ receiver_of c' = mk_receiver false [] 5 [x17]).
  { replace rs with (fst (run toy heard_calls (conn_in heard))) by (now rewrite E). replace c' with (snd (run toy heard_calls (conn_in heard))) by (now rewrite E).
    vm_compute. split; reflexivity. }
  destruct G as [G1 G2]. split; [exact G1|]. split; [|exact G2].
  apply Forall_forall. intros [o r] Hin. apply (in_map snd) in Hin. rewrite G1 in Hin. cbn [snd] in *. unfold returned. cbn [snd].
  clear -Hin. cbn in Hin. repeat destruct Hin as [<-|Hin]; exact I || contradiction.
Qed.

(** The machine, from its rules alone, for the first of these calls: the record is taken and opens. *)
Example C54_machine_case : let c := conn_in heard in
  exists w', receive toy (read_key c) (read_iv c) 400 (mk_receiver true [] 0 heard) OpFillBuf (Ok (VBytes [x68; x69])) (mk_receiver true [x68; x69] 1 w').
Proof.
  cbv zeta. exists (skipn 27 heard). eapply rc_data with (d := [x68; x69]); [reflexivity| |now eexists|apply tk_fill; discriminate].
  replace heard with (firstn 5 heard ++ firstn 22 (skipn 5 heard) ++ skipn 27 heard) at 2 by (vm_compute; reflexivity).
  apply (he_record toy _ _ 400 0 (firstn 5 heard) (firstn 22 (skipn 5 heard)) (skipn 27 heard) (V_data [x68; x69]) 1).
  - split; [split; vm_compute; reflexivity|]. split; [vm_compute; tauto|]. apply Nat.leb_le. vm_compute. reflexivity.
  - apply (ri_taken toy _ _ 0 _ _ ([x68; x69] ++ [ty_data] ++ repeat x00 3) ty_data [x68; x69] (V_data [x68; x69]));
      [vm_compute; reflexivity|vm_compute; reflexivity|vm_compute; reflexivity|apply ci_data|reflexivity|reflexivity].
  - reflexivity.
Qed.

Print Assumptions C54_start.
Print Assumptions C54_run.
Print Assumptions C54_determined.
Print Assumptions C54_never_stuck.
Print Assumptions C54_nothing_else.
