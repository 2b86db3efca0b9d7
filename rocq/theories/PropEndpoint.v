(** * C55: an open connection is two machines that share the open flag *)
From Coq Require Import String List NArith Arith Bool Lia ZArith.
From Coq.Strings Require Import Byte.
From Verif Require Import Base ParseBuffer Buffer Codes Crypto KeySchedule Config Handshake Record WriteBuffer
  Transport RecordReader Connection Api SpecWire SpecCodes SpecMessages SpecKeys SpecRecord SpecRead SpecSend SendProofs ConnProofs FrameProofs ReadProofs RecvProofs
  SpecSession Toy ToyRun PropSession PropSend PropWrite PropRead PropRecv SpecHandshake SpecReceiver ReceiverProofs ListenProofs PropReceiver
  SpecEndpoint EndpointProofs.
Import ListNotations.
Local Open Scope list_scope.

Lemma in_use_sending C L c : crypto_ok C -> 133 <= L -> in_use C L c -> exists pend, sending C L (cn_wh c) pend.
Proof.
  intros HC HL (c0 & ops & He & Hcl & _ & ->). destruct (run C ops c0) as [rs c] eqn:E.
  destruct (after_calls C L c0 ops rs c HC He HL Hcl E) as (pend & H & _). now exists pend.
Qed.

(** After [open]: nothing collected, nothing decrypted, both record numbers 0. *)
Theorem C55_start : forall C L c, crypto_ok C -> 133 <= L -> established C L c -> steady c ->
  listening C L c /\
  endpoint_of c = mk_endpoint (mk_receiver true [] 0 (incoming c)) (mk_sender None 0 Strict (wh_tx (cn_wh c))).
Proof.
  intros C L c HC HL He Hs. destruct (C54_start C L c HC He Hs) as [Hl Hr]. split; [exact Hl|]. unfold endpoint_of. rewrite Hr. f_equal.
  destruct (established_facts C L c HC He) as (_ & H0 & _ & Hp & _).
  rewrite sender_of_half, (sending_sender C L _ None (established_sending C L c HC HL He)). unfold sender_in. now rewrite H0, Hp.
Qed.

(** Whatever calls follow - until the connection is closed or the client panics - and whatever the transport does with the bytes
    that it is handed: the results and the state in the end are those of the machines. *)
Theorem C55_run : forall C L c ops rs c', crypto_ok C -> 133 <= L -> listening C L c -> run C ops c = (rs, c') ->
  acts C (session_of L c) (endpoint_of c) rs (endpoint_of c').
Proof.
  intros C L c ops rs c' HC HL Hl H. destruct (in_use_sending C L c HC HL (proj1 Hl)) as [pend Hs].
  exact (endpoint_run C L (incoming c) HC ops c rs c' pend (listening_mirrors C L c HC Hl) Hs H).
Qed.

(** The machines leave no choice. *)
Theorem C55_determined : forall C L c ops rs c' rs' s', crypto_ok C -> 133 <= L -> listening C L c -> run C ops c = (rs, c') ->
  acts C (session_of L c) (endpoint_of c) rs' s' -> map fst rs' = map fst rs ->
  rs = rs' /\ sender_of c' = e_send s' /\
  (Forall (fun a => forall x, snd a <> Panic x) rs -> endpoint_of c' = s').
Proof.
  intros C L c ops rs c' rs' s' HC HL Hl H H' E.
  exact (acts_unique C _ _ _ _ (C55_run C L c ops rs c' HC HL Hl H) _ _ H' (eq_sym E)).
Qed.

(** And they answer every call in every state. *)
Theorem C55_never_stuck : forall C k s o, exists r s', act C k s o r s'.
Proof. exact act_total. Qed.

(** Nothing else matters: connections with the same keys, buffer sizes, transport and state of the two machines live the same life. *)
Theorem C55_nothing_else : forall C L1 L2 c1 c2 ops, crypto_ok C -> 133 <= L1 -> 133 <= L2 -> listening C L1 c1 -> listening C L2 c2 ->
  session_of L1 c1 = session_of L2 c2 -> endpoint_of c1 = endpoint_of c2 ->
  let (rs1, c1') := run C ops c1 in let (rs2, c2') := run C ops c2 in
  rs1 = rs2 /\ sender_of c1' = sender_of c2' /\
  (Forall (fun a => forall x, snd a <> Panic x) rs1 -> endpoint_of c1' = endpoint_of c2').
Proof.
  intros C L1 L2 c1 c2 ops HC HL1 HL2 H1 H2 Es Ee. destruct (run C ops c1) as [rs1 c1'] eqn:E1. destruct (run C ops c2) as [rs2 c2'] eqn:E2.
  destruct (in_use_sending C L1 c1 HC HL1 (proj1 H1)) as [p1 S1]. destruct (in_use_sending C L2 c2 HC HL2 (proj1 H2)) as [p2 S2].
  exact (twin_run C L1 L2 _ _ HC ops c1 c2 rs1 rs2 c1' c2' p1 p2 (listening_mirrors C L1 c1 HC H1) (listening_mirrors C L2 c2 HC H2) S1 S2 Es Ee E1 E2).
Qed.

(** What arrives does not influence what is sent: however different the bytes that two connections receive, as long as neither
    session ends (and no receiving call panics) the sending calls have the same results and the transports were handed the same. *)
Theorem C55_independent : forall C L c1 c2 ops rs1 c1' rs2 c2', crypto_ok C -> 133 <= L -> listening C L c1 -> listening C L c2 ->
  write_key c1 = write_key c2 -> write_iv c1 = write_iv c2 -> sender_of c1 = sender_of c2 -> cn_opened c1 = true -> cn_opened c2 = true ->
  run C ops c1 = (rs1, c1') -> run C ops c2 = (rs2, c2') ->
  let fine rs := Forall (fun a : op * outcome tls_error value => snd a <> Err ConnectionClosed /\ forall x, receives (fst a) = true -> snd a <> Panic x) rs in
  fine rs1 -> fine rs2 ->
  let sends := filter (fun a : op * outcome tls_error value => negb (receives (fst a))) in
  sends rs1 = sends rs2 /\ sender_of c1' = sender_of c2'.
Proof.
  intros C L c1 c2 ops rs1 c1' rs2 c2' HC HL H1 H2 Ek Ei Es O1 O2 E1 E2 fine G1 G2.
  destruct (in_use_sending C L c1 HC HL (proj1 H1)) as [p1 S1]. destruct (in_use_sending C L c2 HC HL (proj1 H2)) as [p2 S2].
  exact (sends_run C L L _ _ HC ops c1 c2 rs1 rs2 c1' c2' p1 p2 (listening_mirrors C L c1 HC H1) (listening_mirrors C L c2 HC H2) S1 S2 Ek Ei eq_refl Es O1 O2 E1 E2 G1 G2).
Qed.

(** ** Non-vacuity *)

(** The server's bytes are those of C54_case.  The transport takes the ClientHello and the Finished; of the first record that the
    application sends it takes 10 bytes and fails; it takes the next one but fails to flush it. *)
Definition tx_both : txst := mk_txst [WrOk; WrOk; WrErr 10 5%N] [FlOk; FlOk; FlErr 7%N] [].
Definition conn_both : conn := Eval vm_compute in the_conn (opened_conn 400 300 [RxData heard] tx_both).
Lemma conn_both_established : established toy 300 conn_both.
Proof. apply (opened_established [RxData heard] tx_both conn_both). vm_compute. reflexivity. Qed.

Definition both_calls : list op :=
  [OpWrite [x41; x42]; OpFlush; OpFillBuf; OpWrite [x43]; OpWrite [x44]; OpConsume 2; OpFlush; OpSetPolicy Relaxed; OpWrite (zeros 200);
   OpFillBuf; OpConsume 1; OpFillBuf; OpFillBuf; OpConsume 2; OpFillBuf; OpFillBuf; OpWrite [x45]; OpFillBuf; OpClose].
Definition both_results : list (outcome tls_error value) :=
  [Ok (VCount 2); Err (Io 5%N); Ok (VBytes [x68; x69]); Ok (VCount 1); Ok (VCount 1); Ok VUnit; Err (Io 7%N); Ok VUnit; Ok (VCount 167);
   Ok (VBytes [x21]); Ok VUnit; Err CryptoError; Ok (VBytes [x6f; x6b]); Ok VUnit; Err InternalError; Err ConnectionClosed; Err MissingHandshake; Err MissingHandshake; Ok VUnit].

Definition both_end : list (op * outcome tls_error value) * conn := Eval vm_compute in run toy both_calls conn_both.

Example C55_case : let c := conn_both in
  listening toy 300 c /\ endpoint_of c = mk_endpoint (mk_receiver true [] 0 heard) (mk_sender None 0 Strict (wh_tx (cn_wh c))) /\
  run toy both_calls c = both_end /\ map snd (fst both_end) = both_results /\
  (let e := endpoint_of (snd both_end) in
   e_recv e = mk_receiver false [] 5 [x17] /\ t_data (e_send e) = None /\ t_next (e_send e) = 3%N /\ t_policy (e_send e) = Relaxed /\
   skipn 4 (tx_log (t_tx (e_send e))) =
     let rec n x := rfc_record toy (write_key c) (write_iv c) n ty_data x 0 in
     [TxWrite (rec 0%N [x41; x42]) 10; TxWrite (rec 0%N [x43; x44]) 24; TxWrite (rec 1%N (zeros 167)) 189;
      TxWrite [x14; x03; x01; x00; x02; x01; x00] 7; TxFlush]).
Proof.
  cbv zeta.
  assert (Hs : steady conn_both) by (constructor; [eexists; split; [reflexivity|discriminate]|constructor]).
  assert (HL : 133 <= 300) by lia. destruct (C55_start toy 300 conn_both toy_ok HL conn_both_established Hs) as [H1 H2].
  split; [exact H1|]. split; [rewrite H2; f_equal; f_equal; vm_compute; reflexivity|].
  split; [vm_compute; reflexivity|]. split; [reflexivity|]. vm_compute. repeat split.
Qed.

(** Two connections that receive different things. *)
Example C55_independent_case : let c1 := conn_in heard in let c2 := conn_in forged_one in let ops := [OpWrite [x41]; OpFillBuf; OpFlush] in
  listening toy 300 c1 /\ listening toy 300 c2 /\ write_key c1 = write_key c2 /\ write_iv c1 = write_iv c2 /\ sender_of c1 = sender_of c2 /\
  map snd (fst (run toy ops c1)) = [Ok (VCount 1); Ok (VBytes [x68; x69]); Ok VUnit] /\
  map snd (fst (run toy ops c2)) = [Ok (VCount 1); Err CryptoError; Ok VUnit].
Proof.
  cbv zeta. destruct (conn_in_waiting heard) as (A1 & _ & _ & A4 & A5). destruct (conn_in_waiting forged_one) as (B1 & _ & _ & B4 & B5).
  split; [now split|]. split; [now split|]. vm_compute. repeat split.
Qed.

Print Assumptions C55_start.
Print Assumptions C55_run.
Print Assumptions C55_determined.
Print Assumptions C55_never_stuck.
Print Assumptions C55_nothing_else.
Print Assumptions C55_independent.
