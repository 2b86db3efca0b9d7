(** * C10, C13, C41: what the peer gets out of the records sent *)
From Coq Require Import String List NArith Arith Bool Lia ZArith.
From Coq.Strings Require Import Byte.
From Coq Require Import ZifyBool ZifyNat ZifyN.
From Verif Require Import Base Buffer Codes Extensions Crypto KeySchedule Config Handshake Record WriteBuffer
  Transport RecordReader ReadBuffer Connection Api
  BaseProofs SpecWire WireProofs SpecKeys KeyProofs SpecRecord RecordProofs SpecSend SendProofs
  HsWrite HsProofs ConnProofs Toy ToyRun.
Import ListNotations.
Local Open Scope list_scope.

Ltac Zify.zify_post_hook ::= Z.div_mod_to_equations.

Definition no_close (ops : list op) : Prop := forallb (fun o => negb (is_close o)) ops = true.

(** ** C13 *)

Lemma clean_types C key iv L n l m : clean C key iv L n l m -> Forall (fun d => fst d = ty_data) (contents l).
Proof. induction 1; [constructor|assumption|]. cbn [contents map concat app]. constructor; [reflexivity|assumption]. Qed.

(** On an established connection with a write buffer of [L] bytes over a transport that does
    not fail, whatever calls the application makes (reads included), the peer that opens the
    bytes sent since [open], with sequence numbers from 0, gets application-data records
    only and rejects none; their contents, plus [rest], are exactly the bytes the writes
    reported as accepted; [rest] is what the calls left in the buffer, which is nothing after
    a flush.  [lim] is the peer's limit on the content of a record (2^14 in TLS). *)
Theorem C13_peer_gets_what_was_accepted : forall C L lim c ops rs c',
  crypto_ok C -> established C L c -> 133 <= L <= 133 + lim -> (N.of_nat lim < 65519)%N ->
  transport_succeeds c -> no_close ops -> (N.of_nat (length ops) <= u64_max)%N ->
  run C ops c = (rs, c') ->
  exists new ds rest,
    sent_log c' = sent_log c ++ new /\
    peer_read C lim (write_key c) (write_iv c) 0 (wire new) = (ds, Pending []) /\
    Forall (fun d => fst d = ty_data) ds /\
    concat (map snd ds) ++ rest = accepted rs /\
    length rest = fill (started (L - 133) rs) /\
    (forall rs1 r, rs = rs1 ++ [(OpFlush, r)] -> rest = []) /\
    Forall (fun p => ~ send_fault p) rs.
Proof.
  intros C L lim c ops rs c' HC He HL Hlim Htx Hcl Hcnt Hrun.
  destruct (established_facts C L c HC He) as (_ & H0 & _ & Hpol & _).
  pose proof (established_sending C L c HC (proj1 HL) He) as Hs.
  destruct (run_happy C L HC ops c rs c' None Hs) as (hs & pend & Hs' & _ & _ & Hlog & Hclean & _ & Hdata & Hnf).
  { exact Htx. }
  { exact Hcl. }
  { rewrite H0. lia. }
  { exact Hrun. }
  destruct (run_started C L HC ops c rs c' None Hs Hcl Hrun) as (pend2 & Hs2 & Hst & _).
  rewrite (sending_inj _ _ _ _ _ Hs2 Hs') in Hst. clear pend2 Hs2. cbn [option_map] in Hst. fold (started (L - 133) rs) in Hst.
  exists (map (ev C (k_key (wst (cn_wh c))) (k_iv (wst (cn_wh c)))) hs), (contents hs), (content pend).
  split; [exact Hlog|]. split.
  { rewrite <- (app_nil_r (wire _)). rewrite H0 in Hclean.
    unfold write_key, write_iv. fold (wst (cn_wh c)).
    rewrite (clean_wire C _ _ L lim 0 hs _ [] HC Hclean) by tauto. rewrite peer_read_nil. cbn [fst snd]. now rewrite app_nil_r. }
  split; [eapply clean_types; eauto|].
  split; [now rewrite <- (clean_data _ _ _ _ _ _ _ Hclean), Hdata|].
  split; [rewrite <- Hst; now destruct pend|].
  split; [|exact Hnf]. intros rs1 r E. rewrite E in Hst. unfold started in Hst. rewrite fold_left_app in Hst. cbn in Hst.
  now destruct pend.
Qed.

(** A connection opened with a toy server, a write buffer of 300 bytes and a transport that
    answers [tx]; it meets [established]. *)
Definition conn_300 : conn := toy_conn [].
Lemma conn_300_established : established toy 300 conn_300.
Proof. apply toy_conn_established. Qed.

(** 400 bytes written in three calls: one record goes out on its own, the flush sends the rest. *)
Definition ops_13 : list op := [OpWrite (repeat x41 100); OpWrite (repeat x42 100); OpWrite (repeat x43 33); OpFlush].
Example C13_example : established toy 300 conn_300 /\ transport_succeeds conn_300 /\ no_close ops_13 /\ 133 <= 300 <= 133 + rfc_limit /\
  peer_read toy rfc_limit (write_key conn_300) (write_iv conn_300) 0
    (wire (skipn 4 (sent_log (snd (run toy ops_13 conn_300)))))
  = ([(ty_data, repeat x41 100 ++ repeat x42 67); (ty_data, repeat x43 33)], Pending []) /\
  accepted (fst (run toy ops_13 conn_300)) = repeat x41 100 ++ repeat x42 67 ++ repeat x43 33.
Proof.
  split; [exact conn_300_established|]. split; [split; constructor|]. split; [reflexivity|].
  split; [unfold rfc_limit; lia|]. split; vm_compute; reflexivity.
Qed.

(** ** C10 *)

(** Nothing sent in the clear can be taken for a protected record (type 23). *)
Definition plain_is_plain (h : handed) : Prop :=
  match h with H_plain b _ => hd x00 b <> x17 | _ => True end.

(** Everything an established connection hands to its transport in any history (including
    close) is a list of protected records and alerts in the clear, and no two protected
    records share a nonce, provided the application makes no further call after a sending
    call failed at the transport - or no [write_all] ever fails.
    Missing for the full statement: see [C10_refuted]. *)
Theorem C10_nonces_distinct_partial : forall C L c ops rs c',
  crypto_ok C -> established C L c -> 133 <= L -> run C ops c = (rs, c') ->
  writes_succeed c \/ Forall (fun p => ~ send_fault p) (removelast rs) ->
  exists hs, sent_log c' = sent_log c ++ map (ev C (write_key c) (write_iv c)) hs /\
    Forall plain_is_plain hs /\
    NoDup (map (rfc_nonce (write_iv c)) (seqs hs)).
Proof.
  intros C L c ops rs c' HC He HL Hrun Hsafe.
  destruct (established_facts C L c HC He) as ((_ & Hiv) & H0 & _).
  pose proof (established_sending C L c HC HL He) as Hs.
  destruct (run_seqs C L ops c rs c' None HC Hs ltac:(rewrite H0; unfold u64_max; lia) Hrun Hsafe) as (hs & Hlog & Hfit & Hnd & Hr).
  exists hs. split; [exact Hlog|]. split.
  { eapply Forall_impl; [|exact Hfit]. intros [n ty x k|b k|] H; cbn in *; auto. destruct H as [-> _]. discriminate. }
  clear - Hnd Hr Hiv HC. induction Hnd as [|x l Hx Hl IH]; [constructor|]. cbn [map]. inversion Hr. subst.
  constructor; [|auto]. rewrite in_map_iff. intros (y & Hy & Hin). apply Hx.
  rewrite Forall_forall in H2. specialize (H2 y Hin).
  assert (y = x); [|now subst]. apply (rfc_nonce_inj (write_iv c)); [|unfold u64_max in *; lia|unfold u64_max in *; lia|exact Hy].
  unfold write_iv. fold (wst (cn_wh c)). rewrite Hiv. apply (ok_iv_len C HC).
Qed.

(** The full statement is false: when [write_all] fails, the record is dropped but the counter
    is not advanced; the next record uses the same key and nonce for other data.  Here the
    failing call put 3 bytes on the wire; the caller then writes again. *)
Definition tx_fails_third : txst := mk_txst [WrOk; WrOk; WrErr 30 0%N] [] [].
Definition conn_fail : conn := Eval vm_compute in the_conn (opened_conn 400 300 [] tx_fails_third).
Lemma conn_fail_established : established toy 300 conn_fail.
Proof.
  exists unit, plain_provider, small_config, tt, (zeros 400), (zeros 300),
    [RxData plain_flight], tx_fails_third.
  eexists. split; [reflexivity|]. split; [reflexivity|]. split; [reflexivity|]. vm_compute. reflexivity.
Qed.

Definition ops_fail : list op := [OpWrite [x41; x42]; OpFlush; OpWrite [x43; x44]; OpFlush].

Theorem C10_refuted : exists C L c ops n d1 d2 k,
  crypto_ok C /\ established C L c /\ 133 <= L /\ d1 <> d2 /\ 5 < k /\
  let c' := snd (run C ops c) in
  sent_log c' = sent_log c ++
    [TxWrite (rfc_record C (write_key c) (write_iv c) n ty_data d1 0) k;
     TxWrite (rfc_record C (write_key c) (write_iv c) n ty_data d2 0)
       (length (rfc_record C (write_key c) (write_iv c) n ty_data d2 0)); TxFlush].
Proof.
  exists toy, 300, conn_fail, ops_fail, 0%N, [x41; x42], [x43; x44]. eexists.
  split; [exact toy_ok|]. split; [exact conn_fail_established|]. split; [lia|]. split; [discriminate|].
  split; [|vm_compute; reflexivity]. vm_compute. lia.
Qed.

Example C10_example : established toy 300 conn_300 /\ writes_succeed conn_300 /\
  length (filter (fun e => match e with TxWrite _ _ => true | _ => false end)
     (skipn 4 (sent_log (snd (run toy (ops_13 ++ [OpClose]) conn_300))))) = 3.
Proof. split; [exact conn_300_established|]. split; [constructor|]. vm_compute. reflexivity. Qed.

(** ** C41 *)

Lemma peer_read_one C lim key iv n x : crypto_ok C -> length x <= lim -> (N.of_nat lim < 65519)%N ->
  peer_read C lim key iv n (rfc_record C key iv n ty_data x 0) = ([(ty_data, x)], Pending []).
Proof.
  intros HC Hx Hl. rewrite <- (app_nil_r (rfc_record _ _ _ _ _ _ _)).
  rewrite peer_read_record; [|assumption|discriminate|lia|lia]. now rewrite peer_read_nil.
Qed.

(** Whatever the transport does: as long as the application stops at the first sending call
    that fails at the transport, the peer accepts a prefix of the data submitted, in order and
    without a gap, and never rejects a record.
    Missing for the full statement: see [C41_refuted]. *)
Theorem C41_no_gap_partial : forall C L lim c ops rs c',
  crypto_ok C -> established C L c -> 133 <= L <= 133 + lim -> (N.of_nat lim < 65519)%N ->
  no_close ops -> run C ops c = (rs, c') -> Forall (fun p => ~ send_fault p) (removelast rs) ->
  exists new ds left,
    sent_log c' = sent_log c ++ new /\
    peer_read C lim (write_key c) (write_iv c) 0 (wire new) = (ds, Pending left) /\
    prefix (app_data ds) (submitted rs).
Proof.
  intros C L lim c ops rs c' HC He HL Hlim Hcl Hrun Hsafe.
  destruct (established_facts C L c HC He) as (_ & H0 & _).
  pose proof (established_sending C L c HC (proj1 HL) He) as Hs.
  destruct (run_gen C L HC ops c rs c' None Hs Hcl Hrun (or_intror Hsafe)) as
    (hs & tail & pend & Hs' & _ & Hlog & Hclean & Htail & _ & _ & Hpre).
  specialize (Hpre Hsafe). cbn [content app] in Hpre.
  unfold write_key, write_iv. fold (wst (cn_wh c)).
  set (key := k_key (wst (cn_wh c))) in *. set (iv := k_iv (wst (cn_wh c))) in *. rewrite H0 in Hclean.
  exists (map (ev C key iv) (hs ++ tail)).
  rewrite map_app, wire_app. rewrite (clean_wire C key iv L lim 0 hs _ _ HC Hclean) by tauto.
  destruct Htail as [->|(x & k & -> & Hx & Hk)].
  - cbn [map wire concat]. rewrite peer_read_nil. cbn [fst snd]. rewrite app_nil_r in *.
    do 2 eexists. split; [rewrite ?app_nil_r; exact Hlog|]. split; [reflexivity|]. rewrite ?app_nil_r. exact Hpre.
  - cbn [map wire concat ev ev_bytes]. rewrite !app_nil_r. rewrite map_app in Hlog.
    destruct (Nat.eq_dec k (length (rfc_record C key iv (k_counter (wst (cn_wh c'))) ty_data x 0))) as [->|Hne].
    + rewrite firstn_all, peer_read_one by (auto; lia). cbn [fst snd]. do 2 eexists. split; [exact Hlog|]. split; [reflexivity|].
      rewrite contents_app in Hpre. exact Hpre.
    + rewrite peer_read_prefix by (auto; lia). cbn [fst snd]. do 2 eexists. split; [exact Hlog|]. split; [reflexivity|].
      rewrite app_nil_r. eapply prefix_trans; [|exact Hpre]. rewrite contents_app, app_data_app. apply prefix_app.
Qed.

(** The full statement is false: a record whose [write_all] failed before its first byte is
    gone, and the next one takes its place in the authenticated stream. *)
Definition tx_fails_clean : txst := mk_txst [WrOk; WrOk; WrErr 0 0%N] [] [].
Definition conn_gap : conn := Eval vm_compute in the_conn (opened_conn 400 300 [] tx_fails_clean).
Lemma conn_gap_established : established toy 300 conn_gap.
Proof.
  exists unit, plain_provider, small_config, tt, (zeros 400), (zeros 300),
    [RxData plain_flight], tx_fails_clean.
  eexists. split; [reflexivity|]. split; [reflexivity|]. split; [reflexivity|]. vm_compute. reflexivity.
Qed.

Theorem C41_refuted : exists C L c ops new lost later,
  crypto_ok C /\ established C L c /\ 133 <= L <= 133 + rfc_limit /\
  let '(rs, c') := run C ops c in
  sent_log c' = sent_log c ++ new /\
  accepted rs = lost ++ later /\ lost <> [] /\ later <> [] /\
  peer_read C rfc_limit (write_key c) (write_iv c) 0 (wire new) = ([(ty_data, later)], Pending []).
Proof.
  exists toy, 300, conn_gap, ops_fail. eexists _, [x41; x42], [x43; x44].
  split; [exact toy_ok|]. split; [exact conn_gap_established|]. split; [unfold rfc_limit; lia|].
  destruct (run toy ops_fail conn_gap) as [rs c'] eqn:E.
  vm_compute in E. inversion E. subst rs c'. clear E.
  split; [vm_compute; reflexivity|]. split; [reflexivity|]. split; [discriminate|]. split; [discriminate|].
  vm_compute. reflexivity.
Qed.

Example C41_example : established toy 300 conn_gap /\
  Forall (fun p => ~ send_fault p) (removelast (fst (run toy (firstn 2 ops_fail) conn_gap))) /\
  exists p, fst (run toy (firstn 2 ops_fail) conn_gap) = [p; (OpFlush, Err (Io 0%N))].
Proof.
  split; [exact conn_gap_established|]. destruct (run toy (firstn 2 ops_fail) conn_gap) as [rs c'] eqn:E.
  vm_compute in E. inversion E. subst. cbn [fst removelast]. split; [|eexists; reflexivity].
  constructor; [|constructor]. intros [_ [[k H]|H]]; discriminate.
Qed.

Print Assumptions C13_peer_gets_what_was_accepted.
Print Assumptions C10_nonces_distinct_partial.
Print Assumptions C10_refuted.
Print Assumptions C41_no_gap_partial.
Print Assumptions C41_refuted.
