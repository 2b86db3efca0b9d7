(** * C10, C41: which records share a number, and what the peer makes of it, in every history *)
From Coq Require Import String List NArith Arith Bool Lia ZArith.
From Coq.Strings Require Import Byte.
From Coq Require Import ZifyBool ZifyNat ZifyN.
From Verif Require Import Base ParseBuffer Buffer Codes Crypto KeySchedule Config Handshake Record WriteBuffer
  Transport RecordReader Connection Api SpecWire SpecKeys SpecRecord SpecRead SpecSend RecordProofs SendProofs ConnProofs RecvProofs
  Toy ToyRun SpecReceiver SpecEndpoint EndpointProofs PropSend PropEndpoint SpecNumbers NumberProofs.
Import ListNotations.
Local Open Scope list_scope.

(** In every history of calls, whatever the transport does: all that is handed to it are protected records, flushes
    and alerts in the clear, and a protected record carries the number that counts the records which the transport
    took before it - those that it did not take are not counted. *)
Theorem C10_numbers : forall C L c ops rs c', crypto_ok C -> 133 <= L -> in_use C L c -> run C ops c = (rs, c') ->
  exists hs, sent_log c' = sent_log c ++ map (ev C (write_key c) (write_iv c)) hs /\ Forall plain_is_plain hs /\
    forall i n ty x k, nth_error (writes hs) i = Some (H_rec n ty x k) ->
      n = (next_number c + N.of_nat (successes c i))%N /\
      k = reach (answer c i) (rfc_record C (write_key c) (write_iv c) n ty x 0).
Proof.
  intros C L c ops rs c' HC HL Hin H. destruct (in_use_sending C L c HC HL Hin) as [pend Hs].
  destruct (run_counted C L HC ops c rs c' pend Hs H) as (hs & n1 & a1 & Hlog & Hc). exists hs. split; [exact Hlog|]. split.
  - clear Hlog. induction Hc; constructor; auto; exact I.
  - intros i n ty x k Hi. destruct (counted_at _ _ _ _ _ _ _ _ Hc i _ Hi) as [(ty' & x' & E)|(b & E & _)]; [|discriminate].
    inversion E. subst. split; reflexivity.
Qed.

Lemma successes_same c i j : i < j -> (successes c i = successes c j <-> forall m, i <= m < j -> took (answer c m) = false).
Proof.
  intros H. unfold successes. replace j with (i + (j - i)) at 1 by lia. rewrite seq_app, map_app, filter_app, app_length. cbn [plus].
  split.
  - intros E m Hm. destruct (took (answer c m)) eqn:Et; [|reflexivity]. exfalso.
    assert (In (answer c m) (filter took (map (answer c) (seq i (j - i))))).
    { apply filter_In. split; [|exact Et]. apply in_map. apply in_seq. lia. }
    destruct (filter took (map (answer c) (seq i (j - i)))); [contradiction|]. cbn [length] in E. lia.
  - intros Hm. assert (E : filter took (map (answer c) (seq i (j - i))) = []).
    { destruct (filter _ _) as [|a l] eqn:Ef; [reflexivity|]. assert (Hin : In a (a :: l)) by now left. rewrite <- Ef in Hin.
      apply filter_In in Hin as [Hin Ht]. apply in_map_iff in Hin as (m & <- & Hin). apply in_seq in Hin. rewrite Hm in Ht by lia. discriminate. }
    rewrite E. cbn [length]. lia.
Qed.

(** Two records share their number exactly if the transport took neither the first of them nor any record between them. *)
Theorem C10_shared : forall C L c ops rs c', crypto_ok C -> 133 <= L -> in_use C L c -> run C ops c = (rs, c') ->
  exists hs, sent_log c' = sent_log c ++ map (ev C (write_key c) (write_iv c)) hs /\ Forall plain_is_plain hs /\
    forall i j n1 ty1 x1 k1 n2 ty2 x2 k2, i < j ->
      nth_error (writes hs) i = Some (H_rec n1 ty1 x1 k1) -> nth_error (writes hs) j = Some (H_rec n2 ty2 x2 k2) ->
      (n1 = n2 <-> forall m, i <= m < j -> took (answer c m) = false).
Proof.
  intros C L c ops rs c' HC HL Hin H. destruct (C10_numbers C L c ops rs c' HC HL Hin H) as (hs & Hlog & Hp & Hn).
  exists hs. split; [exact Hlog|]. split; [exact Hp|]. intros i j n1 ty1 x1 k1 n2 ty2 x2 k2 Hij H1 H2.
  destruct (Hn _ _ _ _ _ H1) as [-> _]. destruct (Hn _ _ _ _ _ H2) as [-> _]. rewrite <- (successes_same c i j Hij). lia.
Qed.

(** ** Sharing does happen, on every connection *)

(** Two short messages, each written and flushed. *)
Definition two_messages (d1 d2 : bytes) : list op := [OpWrite d1; OpFlush; OpWrite d2; OpFlush].

(** Nothing is waiting in the write buffer. *)
Definition nothing_collected (c : conn) : Prop := wb_hdr (wh_wb (cn_wh c)) = None.

Definition sentence (a : wr_answer) : outcome tls_error value :=
  match a with WrOk => Ok VUnit | WrErr _ k => Err (Io k) | WrCancel _ => Cancelled end.

Lemma two_messages_sent C L c d1 d2 rs c' : crypto_ok C -> 133 <= L -> in_use C L c -> cn_opened c = true -> nothing_collected c ->
  length d1 < L - 133 -> length d2 < L - 133 -> answer c 0 <> WrOk -> answer c 1 = WrOk -> (next_number c < u64_max)%N ->
  run C (two_messages d1 d2) c = (rs, c') ->
  let r1 := rfc_record C (write_key c) (write_iv c) (next_number c) ty_data d1 0 in
  let r2 := rfc_record C (write_key c) (write_iv c) (next_number c) ty_data d2 0 in
  exists last tail, map snd rs = [Ok (VCount (length d1)); sentence (answer c 0); Ok (VCount (length d2)); last] /\
    (tail = [] \/ tail = [TxFlush]) /\
    sent_log c' = sent_log c ++ TxWrite r1 (reach (answer c 0) r1) :: TxWrite r2 (length r2) :: tail.
Proof.
  intros HC HL Hin Hop Hno H1 H2 Ha0 Ha1 Hnum Hrun r1 r2. destruct (in_use_sending C L c HC HL Hin) as [p0 S0].
  unfold two_messages in Hrun.
  destruct (step C (OpWrite d1) c) as [o1 c1] eqn:E1. rewrite (run_cons' C _ _ c o1 c1 E1) in Hrun.
  destruct (transmit_step C L c (OpWrite d1) o1 c1 p0 HC S0 eq_refl E1) as (T1 & T1' & _ & _ & Hop1). destruct (T1' eq_refl) as (p1 & S1 & K1 & I1). clear T1'.
  assert (Hs : sender_of c = mk_sender None (next_number c) (wh_policy (cn_wh c)) (wh_tx (cn_wh c))).
  { unfold sender_of. now rewrite Hno. }
  rewrite Hs, Hop in T1. cbn [transmit t_data t_next t_policy t_tx length] in T1. rewrite Nat.sub_0_r, Nat.min_l, firstn_all in T1 by lia.
  destruct (Nat.eqb_spec (0 + length d1) (L - 133)) as [E|_]; [lia|]. apply pair_equal_spec in T1 as [<- T1]. cbn [stops] in Hrun.
  destruct (step C OpFlush c1) as [o2 c2] eqn:E2. rewrite (run_cons' C _ _ c1 o2 c2 E2) in Hrun.
  destruct (transmit_step C L c1 OpFlush o2 c2 p1 HC S1 eq_refl E2) as (T2 & T2' & _ & _ & Hop2). destruct (T2' eq_refl) as (p2 & S2 & K2 & I2). clear T2'.
  rewrite <- T1, K1, I1, Hop1 in T2. cbn [transmit emit_data t_data t_next t_policy t_tx app] in T2. fold r1 in T2.
  assert (T2' : o2 = sentence (answer c 0) /\
    sender_of c2 = mk_sender None (next_number c) (wh_policy (cn_wh c)) (mk_txst (tl (tx_wr (wh_tx (cn_wh c)))) (tx_fl (wh_tx (cn_wh c)))
       (sent_log c ++ [TxWrite r1 (reach (answer c 0) r1)]))).
  { unfold emit, tx_write_all in T2. cbn [t_tx t_next t_policy] in T2. unfold answer in *.
    destruct (tx_wr (wh_tx (cn_wh c))) as [|[|k e|k] wr]; cbn [nth] in *; [now destruct Ha0|now destruct Ha0| |];
      cbn [io_error result_of] in T2; apply pair_equal_spec in T2 as [<- <-]; split; reflexivity. }
  clear T2. destruct T2' as [-> T2].
  assert (Hst2 : stops OpFlush (sentence (answer c 0)) = false) by (destruct (answer c 0); reflexivity). rewrite Hst2 in Hrun.
  destruct (step C (OpWrite d2) c2) as [o3 c3] eqn:E3. rewrite (run_cons' C _ _ c2 o3 c3 E3) in Hrun.
  destruct (transmit_step C L c2 (OpWrite d2) o3 c3 p2 HC S2 eq_refl E3) as (T3 & T3' & _ & _ & Hop3). destruct (T3' eq_refl) as (p3 & S3 & K3 & I3). clear T3'.
  rewrite T2, K2, I2, K1, I1, Hop2, Hop1, Hop in T3. cbn [transmit t_data t_next t_policy t_tx length] in T3.
  rewrite Nat.sub_0_r, Nat.min_l, firstn_all in T3 by lia.
  destruct (Nat.eqb_spec (0 + length d2) (L - 133)) as [E|_]; [lia|]. apply pair_equal_spec in T3 as [<- T3]. cbn [stops] in Hrun.
  destruct (step C OpFlush c3) as [o4 c4] eqn:E4. rewrite (run_cons' C _ _ c3 o4 c4 E4) in Hrun.
  destruct (transmit_step C L c3 OpFlush o4 c4 p3 HC S3 eq_refl E4) as (T4 & _).
  rewrite <- T3, K3, I3, K2, I2, K1, I1 in T4. cbn [transmit emit_data t_data t_next t_policy t_tx app] in T4. fold r2 in T4.
  assert (Elog : c' = c4 /\ map snd rs = [Ok (VCount (length d1)); sentence (answer c 0); Ok (VCount (length d2)); o4]).
  { cbn [run fst snd] in Hrun. destruct (stops OpFlush o4); apply pair_equal_spec in Hrun as [<- <-]; split; reflexivity. }
  destruct Elog as [-> Ers]. exists o4.
  assert (G : exists tail, (tail = [] \/ tail = [TxFlush]) /\
     tx_log (t_tx (sender_of c4)) = (sent_log c ++ [TxWrite r1 (reach (answer c 0) r1)]) ++ TxWrite r2 (length r2) :: tail).
  { unfold emit, tx_write_all in T4. cbn [t_tx t_next t_policy tx_wr tx_fl tx_log] in T4. unfold answer in Ha1.
    rewrite (proj2 (N.ltb_lt _ _) Hnum) in T4.
    destruct (tx_wr (wh_tx (cn_wh c))) as [|a0 [|[|k e|k] wr]]; cbn [nth tl] in *; try discriminate.
    all: destruct (strictly (wh_policy (cn_wh c))); [unfold tx_flush in T4; cbn [tx_wr tx_fl tx_log] in T4; destruct (tx_fl (wh_tx (cn_wh c))) as [|[|k|] fl]|];
      apply pair_equal_spec in T4 as [_ <-]; cbn [t_tx tx_log].
    all: try (exists []; split; [now left|reflexivity]).
    all: exists [TxFlush]; split; [now right|]; rewrite <- app_assoc; reflexivity. }
  destruct G as (tail & Ht & Hlog). exists tail. split; [exact Ers|]. split; [exact Ht|].
  unfold sent_log at 1. change (tx_log (wh_tx (cn_wh c4))) with (tx_log (t_tx (sender_of c4))). rewrite Hlog, <- app_assoc. reflexivity.
Qed.

(** Whatever the connection and whatever was done with it before: if the transport fails the record of one message, the record
    of the next message is protected with the same key and the same number. *)
Theorem C10_reuse_refuted : forall C L c d1 d2 rs c', crypto_ok C -> 133 <= L -> in_use C L c -> cn_opened c = true -> nothing_collected c ->
  length d1 < L - 133 -> length d2 < L - 133 -> answer c 0 <> WrOk -> answer c 1 = WrOk -> (next_number c < u64_max)%N ->
  run C (two_messages d1 d2) c = (rs, c') ->
  let r1 := rfc_record C (write_key c) (write_iv c) (next_number c) ty_data d1 0 in
  let r2 := rfc_record C (write_key c) (write_iv c) (next_number c) ty_data d2 0 in
  exists tail, (tail = [] \/ tail = [TxFlush]) /\
    sent_log c' = sent_log c ++ TxWrite r1 (reach (answer c 0) r1) :: TxWrite r2 (length r2) :: tail.
Proof.
  intros C L c d1 d2 rs c' HC HL Hin Hop Hno H1 H2 Ha0 Ha1 Hnum Hrun.
  destruct (two_messages_sent C L c d1 d2 rs c' HC HL Hin Hop Hno H1 H2 Ha0 Ha1 Hnum Hrun) as (last & tail & _ & Ht & Hlog). eauto.
Qed.

(** If none of the failed record reached the wire, the peer reads the second message where it expects the first; both were
    reported as accepted, and nothing the peer sees shows that one is missing. *)
Theorem C41_gap_refuted : forall C L lim c d1 d2 rs c', crypto_ok C -> 133 <= L <= 133 + lim -> (N.of_nat lim < 65519)%N ->
  in_use C L c -> cn_opened c = true -> nothing_collected c ->
  length d1 < L - 133 -> length d2 < L - 133 -> (answer c 0 = WrCancel 0 \/ exists k, answer c 0 = WrErr 0 k) -> answer c 1 = WrOk -> (next_number c < u64_max)%N ->
  run C (two_messages d1 d2) c = (rs, c') ->
  accepted rs = d1 ++ d2 /\
  exists new, sent_log c' = sent_log c ++ new /\
    peer_read C lim (write_key c) (write_iv c) (next_number c) (wire new) = ([(ty_data, d2)], Pending []).
Proof.
  intros C L lim c d1 d2 rs c' HC HL Hlim Hin Hop Hno H1 H2 Ha0 Ha1 Hnum Hrun.
  assert (Hne : answer c 0 <> WrOk) by (destruct Ha0 as [-> | [k ->]]; discriminate).
  destruct (two_messages_sent C L c d1 d2 rs c' HC (proj1 HL) Hin Hop Hno H1 H2 Hne Ha1 Hnum Hrun) as (last & tail & Hrs & Ht & Hlog).
  split.
  - assert (Hops : map fst rs = firstn (length rs) (two_messages d1 d2)).
    { assert (G : forall ops c rs c', run C ops c = (rs, c') -> map fst rs = firstn (length rs) ops).
      { clear. induction ops as [|o ops IH]; intros c rs c' H.
        - cbn in H. apply pair_equal_spec in H as [<- _]. reflexivity.
        - destruct (step C o c) as [r c1] eqn:E. rewrite (run_cons' C o ops c r c1 E) in H. destruct (stops o r).
          + apply pair_equal_spec in H as [<- _]. reflexivity.
          + destruct (run C ops c1) as [rs2 c2] eqn:Er. apply pair_equal_spec in H as [<- _]. cbn [fst map length firstn]. f_equal. eapply IH. exact Er. }
      eapply G. exact Hrun. }
    assert (Hlen : length rs = 4) by (rewrite <- (map_length snd), Hrs; reflexivity).
    destruct rs as [|[a1 b1] [|[a2 b2] [|[a3 b3] [|[a4 b4] [|]]]]]; try discriminate Hlen.
    cbn in Hops, Hrs. injection Hops as -> -> -> ->. injection Hrs as -> -> -> ->.
    unfold accepted. cbn [map concat accepted1 fst snd app]. rewrite !firstn_all, app_nil_r. reflexivity.
  - eexists. split; [exact Hlog|].
    assert (Hr : forall b, reach (answer c 0) b = 0) by (intros b; destruct Ha0 as [-> | [k ->]]; reflexivity).
    rewrite Hr. unfold wire. cbn [map ev_bytes firstn concat app]. rewrite firstn_all.
    replace (concat (map ev_bytes tail)) with (@nil byte) by (destruct Ht as [-> | ->]; reflexivity). rewrite app_nil_r.
    apply peer_read_one; [exact HC|lia|exact Hlim].
Qed.

(** ** The hypotheses are met *)

Definition reuse_client (c : conn) (a : wr_answer) : Prop :=
  in_use toy 300 c /\ cn_opened c = true /\ nothing_collected c /\ answer c 0 = a /\ answer c 1 = WrOk /\ next_number c = 0%N.

Lemma conn_gap_client : reuse_client conn_gap (WrErr 0 0%N).
Proof.
  split; [apply established_in_use, conn_gap_established|]. split; [reflexivity|]. split; [reflexivity|]. split; [reflexivity|]. split; reflexivity.
Qed.

(** The transport fails the first record before its first byte: the peer reads CD and never learns of AB. *)
Example C41_gap_case : 
  let '(rs, c') := run toy (two_messages [x41; x42] [x43; x44]) conn_gap in
  accepted rs = [x41; x42; x43; x44] /\
  exists new, sent_log c' = sent_log conn_gap ++ new /\
    peer_read toy 200 (write_key conn_gap) (write_iv conn_gap) 0 (wire new) = ([(ty_data, [x43; x44])], Pending []).
Proof.
  destruct conn_gap_client as (K1 & K2 & K3 & K4 & K5 & K6). rewrite <- K6.
  destruct (run toy (two_messages [x41; x42] [x43; x44]) conn_gap) as [rs c'] eqn:E.
  refine (C41_gap_refuted toy 300 200 conn_gap [x41; x42] [x43; x44] rs c' toy_ok _ _ K1 K2 K3 _ _ (or_intror (ex_intro _ _ K4)) K5 _ E);
    first [rewrite K6; reflexivity|cbn [length]; lia].
Qed.

(** The same two records as [C10_shared] sees them: numbers 0 and 0. *)
Example C10_shared_case : exists hs k1 k2,
  sent_log (snd (run toy (two_messages [x41; x42] [x43; x44]) conn_gap)) = sent_log conn_gap ++ map (ev toy (write_key conn_gap) (write_iv conn_gap)) hs /\
  writes hs = [H_rec 0 ty_data [x41; x42] k1; H_rec 0 ty_data [x43; x44] k2].
Proof.
  exists [H_rec 0 ty_data [x41; x42] 0; H_rec 0 ty_data [x43; x44] 24; H_flush], 0, 24. split; [vm_compute; reflexivity|reflexivity].
Qed.

Print Assumptions C10_numbers.
Print Assumptions C10_shared.
Print Assumptions C10_reuse_refuted.
Print Assumptions C41_gap_refuted.
