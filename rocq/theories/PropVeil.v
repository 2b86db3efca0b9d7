(** * Theorems on what the transport shows of the data: C61 *)
From Coq Require Import String List NArith Arith Bool Lia.
From Coq.Strings Require Import Byte.
From Verif Require Import Base ParseBuffer Buffer Codes Extensions Crypto KeySchedule Config Handshake
  Record WriteBuffer Transport RecordReader ReadBuffer Connection Api
  SpecWire SpecKeys SpecRecord SpecSend SpecRead SpecReceiver SpecEndpoint SpecVeil
  BaseProofs RecordProofs WriteProofs SendProofs ConnProofs ReceiverProofs EndpointProofs PropReceiver PropEndpoint Toy ToyRun.
Import ListNotations.
Local Open Scope list_scope.

(** ** The sending machine *)

Section Veil.
Context (C : crypto) (HC : crypto_ok C) (key iv : bytes).

Definition veiled_tx (a b : txst) : Prop :=
  tx_wr a = tx_wr b /\ tx_fl a = tx_fl b /\ Forall2 (veiled C key iv) (tx_log a) (tx_log b).
Definition veiled_sender (s t : sender) : Prop :=
  option_map (@length byte) (t_data s) = option_map (@length byte) (t_data t) /\ t_next s = t_next t /\
  t_policy s = t_policy t /\ veiled_tx (t_tx s) (t_tx t).

(** Records that are the same but for what the AEAD hides. *)
Definition veiled_records (r1 r2 : bytes) : Prop :=
  length r1 = length r2 /\ forall k, veiled C key iv (TxWrite r1 k) (TxWrite r2 k).

Lemma veiled_tx_refl t : veiled_tx t t.
Proof. split; [reflexivity|]. split; [reflexivity|]. induction (tx_log t); constructor; [constructor|assumption]. Qed.

Lemma record_parts n m : rfc_record C key iv n ty_data m 0 =
  let inner := rfc_inner ty_data m 0 in let h := rfc_header (length inner + tag_len C) in
  h ++ fst (c_seal C key (rfc_nonce iv n) h inner) ++ snd (c_seal C key (rfc_nonce iv n) h inner).
Proof. unfold rfc_record. cbv zeta. now destruct (c_seal _ _ _ _ _). Qed.

Lemma inner_length m : length (rfc_inner ty_data m 0) = length m + 1.
Proof. unfold rfc_inner. rewrite !app_length, repeat_length. cbn. lia. Qed.

Lemma record_length n m : length (rfc_record C key iv n ty_data m 0) = 5 + (length m + 1) + tag_len C.
Proof.
  rewrite record_parts. cbv zeta. rewrite !app_length. destruct (ok_seal_len C HC key (rfc_nonce iv n) (rfc_header (length (rfc_inner ty_data m 0) + tag_len C)) (rfc_inner ty_data m 0)) as [-> ->].
  rewrite inner_length. assert (Hh : forall k, length (rfc_header k) = 5) by (intros k; reflexivity). rewrite Hh. lia.
Qed.

Lemma veiled_data n m1 m2 : length m1 = length m2 ->
  veiled_records (rfc_record C key iv n ty_data m1 0) (rfc_record C key iv n ty_data m2 0).
Proof. intros E. split; [rewrite !record_length; lia|]. intros k. now constructor. Qed.

Lemma veiled_refl r : veiled_records r r.
Proof. split; [reflexivity|]. intros k. constructor. Qed.

Lemma veiled_write r1 r2 a b : veiled_records r1 r2 -> veiled_tx a b ->
  fst (tx_write_all r1 a) = fst (tx_write_all r2 b) /\ veiled_tx (snd (tx_write_all r1 a)) (snd (tx_write_all r2 b)).
Proof.
  intros [El Hv] (E1 & E2 & E3). unfold tx_write_all. rewrite <- E1, <- El. unfold veiled_tx.
  destruct (tx_wr a) as [|[|n k|n] r]; cbn [fst snd tx_wr tx_fl tx_log]; (split; [reflexivity|]; split; [reflexivity|]; split; [exact E2|]; apply Forall2_app; [exact E3|constructor; [apply Hv|constructor]]).
Qed.

Lemma veiled_flush a b : veiled_tx a b ->
  fst (tx_flush a) = fst (tx_flush b) /\ veiled_tx (snd (tx_flush a)) (snd (tx_flush b)).
Proof.
  intros (E1 & E2 & E3). unfold tx_flush. rewrite <- E2. unfold veiled_tx.
  assert (G : Forall2 (veiled C key iv) (tx_log a ++ [TxFlush]) (tx_log b ++ [TxFlush])) by (apply Forall2_app; [exact E3|constructor; [constructor|constructor]]).
  destruct (tx_fl a) as [|[|k|] r]; cbn [fst snd tx_wr tx_fl tx_log]; auto.
Qed.

Lemma veiled_emit r1 r2 strict s t : veiled_records r1 r2 -> veiled_sender s t ->
  fst (emit r1 strict s) = fst (emit r2 strict t) /\ veiled_sender (snd (emit r1 strict s)) (snd (emit r2 strict t)).
Proof.
  intros Hr (E1 & E2 & E3 & E4). unfold emit. destruct (veiled_write r1 r2 _ _ Hr E4) as [F1 F2].
  destruct (tx_write_all r1 (t_tx s)) as [o1 a1]. destruct (tx_write_all r2 (t_tx t)) as [o2 a2]. cbn [fst snd] in F1, F2. subst o2. rewrite <- E2, <- E3.
  destruct (veiled_flush a1 a2 F2) as [G1 G2]. destruct (tx_flush a1) as [p1 b1]. destruct (tx_flush a2) as [p2 b2]. cbn [fst snd] in G1, G2. subst p2.
  unfold veiled_sender. destruct o1; try (destruct (t_next s <? u64_max)%N; destruct strict); cbn [fst snd t_data t_next t_policy t_tx option_map]; auto 8.
Qed.

Lemma veiled_emit_data s t : veiled_sender s t ->
  fst (emit_data C key iv s) = fst (emit_data C key iv t) /\ veiled_sender (snd (emit_data C key iv s)) (snd (emit_data C key iv t)).
Proof.
  intros H. assert (H' := H). destruct H as (E1 & E2 & E3 & E4). unfold emit_data. rewrite <- E2, <- E3.
  destruct (t_data s) as [x|]; destruct (t_data t) as [y|]; cbn [option_map] in E1; try discriminate; [|auto].
  apply veiled_emit; [apply veiled_data; congruence|exact H'].
Qed.

Lemma veiled_transmit cap opened o1 o2 s t : same_shape o1 o2 -> veiled_sender s t ->
  fst (transmit C key iv cap opened o1 s) = fst (transmit C key iv cap opened o2 t) /\
  veiled_sender (snd (transmit C key iv cap opened o1 s)) (snd (transmit C key iv cap opened o2 t)).
Proof.
  intros Ho H. assert (G : forall b1 b2, length b1 = length b2 ->
    fst (transmit C key iv cap opened (OpWrite b1) s) = fst (transmit C key iv cap opened (OpWrite b2) t) /\
    veiled_sender (snd (transmit C key iv cap opened (OpWrite b1) s)) (snd (transmit C key iv cap opened (OpWrite b2) t))).
  { intros b1 b2 El. cbn [transmit]. destruct opened; [|auto]. destruct H as (E1 & E2 & E3 & E4).
    set (x := match t_data s with Some x => x | None => [] end). set (y := match t_data t with Some x => x | None => [] end).
    assert (Exy : length x = length y) by (unfold x, y; destruct (t_data s); destruct (t_data t); cbn [option_map] in E1; congruence).
    cbv zeta. rewrite <- El, <- Exy. set (n := Nat.min (length b1) (cap - length x)).
    assert (Hv : veiled_sender (mk_sender (Some (x ++ firstn n b1)) (t_next s) (t_policy s) (t_tx s)) (mk_sender (Some (y ++ firstn n b2)) (t_next t) (t_policy t) (t_tx t))).
    { unfold veiled_sender. cbn [t_data t_next t_policy t_tx option_map]. rewrite !app_length, !firstn_length, El, Exy. auto. }
    destruct (length x + n =? cap); [|auto]. destruct (veiled_emit_data _ _ Hv) as [F1 F2].
    destruct (emit_data C key iv (mk_sender (Some (x ++ firstn n b1)) (t_next s) (t_policy s) (t_tx s))) as [r1 s1].
    destruct (emit_data C key iv (mk_sender (Some (y ++ firstn n b2)) (t_next t) (t_policy t) (t_tx t))) as [r2 t1].
    cbn [fst snd] in *. subst r2. auto. }
  destruct Ho as [b1 b2 El|o]; [now apply G|]. destruct o as [b| |p| | | | |]; [now apply G| | | | | | |]; cbn [transmit]; auto.
  - destruct (veiled_emit_data _ _ H) as [F1 F2]. destruct (emit_data C key iv s) as [r1 s1]. destruct (emit_data C key iv t) as [r2 t1].
    cbn [fst snd] in *. subst r2. auto.
  - destruct H as (E1 & E2 & E3 & E4). split; [reflexivity|]. unfold veiled_sender. cbn [fst snd t_data t_next t_policy t_tx]. auto.
  - destruct (veiled_emit_data _ _ H) as [F1 F2]. destruct (emit_data C key iv s) as [r1 s1]. destruct (emit_data C key iv t) as [r2 t1].
    cbn [fst snd] in *. subst r2. destruct r1 as [[]|e|x| |]; auto.
    assert (En : t_next s1 = t_next t1) by apply F2. rewrite <- En.
    destruct (veiled_emit _ _ true s1 t1 (veiled_refl (farewell C key iv opened (t_next s1))) F2) as [G1 G2].
    destruct (emit (farewell C key iv opened (t_next s1)) true s1) as [r1 s2]. destruct (emit (farewell C key iv opened (t_next s1)) true t1) as [r2 t2].
    cbn [fst snd] in *. subst r2. auto.
Qed.

End Veil.

(** ** The connection *)

Lemma receive_alike C o c1 c2 : receives o = true -> cn_rd c1 = cn_rd c2 -> cn_dec c1 = cn_dec c2 -> cn_opened c1 = cn_opened c2 ->
  fst (step C o c1) = fst (step C o c2) /\
  cn_rd (snd (step C o c1)) = cn_rd (snd (step C o c2)) /\ cn_dec (snd (step C o c1)) = cn_dec (snd (step C o c2)) /\
  cn_opened (snd (step C o c1)) = cn_opened (snd (step C o c2)) /\
  cn_wh (snd (step C o c1)) = cn_wh c1 /\ cn_wh (snd (step C o c2)) = cn_wh c2.
Proof.
  intros Ho E1 E2 E3.
  assert (G : forall A (m : M rhalf tls_error A) (g : A -> value) st, st = (x <- on_rh m ;; ret (g x)) ->
    fst (st c1) = fst (st c2) /\ cn_rd (snd (st c1)) = cn_rd (snd (st c2)) /\ cn_dec (snd (st c1)) = cn_dec (snd (st c2)) /\
    cn_opened (snd (st c1)) = cn_opened (snd (st c2)) /\ cn_wh (snd (st c1)) = cn_wh c1 /\ cn_wh (snd (st c2)) = cn_wh c2).
  { intros A m g st ->. unfold bind, on_rh, ret. rewrite <- E1, <- E2, <- E3.
    destruct (m (cn_rd c1, (cn_dec c1, cn_opened c1))) as [[a|e|x| |] [r [d op]]]; cbn [fst snd cn_rd cn_dec cn_opened cn_wh]; auto 10. }
  destruct o; try discriminate Ho; cbn [step]; eapply G; reflexivity.
Qed.

Definition veiled_conns (C : crypto) (L : nat) (key iv : bytes) (c1 c2 : conn) : Prop :=
  cn_rd c1 = cn_rd c2 /\ cn_dec c1 = cn_dec c2 /\ cn_opened c1 = cn_opened c2 /\
  write_key c1 = key /\ write_key c2 = key /\ write_iv c1 = iv /\ write_iv c2 = iv /\
  (exists p1 p2, sending C L (cn_wh c1) p1 /\ sending C L (cn_wh c2) p2) /\ veiled_sender C key iv (sender_of c1) (sender_of c2).

Lemma veiled_step C L key iv o1 o2 c1 c2 : crypto_ok C -> same_shape o1 o2 -> veiled_conns C L key iv c1 c2 ->
  fst (step C o1 c1) = fst (step C o2 c2) /\
  veiled_sender C key iv (sender_of (snd (step C o1 c1))) (sender_of (snd (step C o2 c2))) /\
  (is_close o1 = false -> veiled_conns C L key iv (snd (step C o1 c1)) (snd (step C o2 c2))).
Proof.
  intros HC Ho (E1 & E2 & E3 & K1 & K2 & I1 & I2 & (p1 & p2 & S1 & S2) & Hv).
  destruct (receives o1) eqn:Hr.
  - assert (o2 = o1) as -> by (destruct Ho; [discriminate|reflexivity]).
    destruct (receive_alike C o1 c1 c2 Hr E1 E2 E3) as (F0 & F1 & F2 & F3 & F4 & F5).
    assert (G : veiled_sender C key iv (sender_of (snd (step C o1 c1))) (sender_of (snd (step C o1 c2)))) by (rewrite !sender_of_half, F4, F5; exact Hv).
    split; [exact F0|]. split; [exact G|]. intros _. unfold veiled_conns, write_key, write_iv. rewrite F4, F5.
    repeat (split; [assumption|]). split; [|exact G]. exists p1, p2. auto.
  - assert (Hr2 : receives o2 = false) by (destruct Ho; [reflexivity|exact Hr]).
    assert (Hcl : is_close o2 = is_close o1) by (destruct Ho; reflexivity).
    destruct (step C o1 c1) as [r1 d1] eqn:X1. destruct (step C o2 c2) as [r2 d2] eqn:X2. cbn [fst snd].
    destruct (transmit_step C L c1 o1 r1 d1 p1 HC S1 Hr X1) as (T1 & N1 & A1 & A2 & A3).
    destruct (transmit_step C L c2 o2 r2 d2 p2 HC S2 Hr2 X2) as (T2 & N2 & B1 & B2 & B3).
    rewrite K1, I1 in T1. rewrite K2, I2, <- E3 in T2.
    destruct (veiled_transmit C HC key iv (L - 133) (cn_opened c1) o1 o2 _ _ Ho Hv) as [V1 V2]. rewrite T1, T2 in V1, V2. cbn [fst snd] in V1, V2.
    split; [exact V1|]. split; [exact V2|]. intros Hc. destruct (N1 Hc) as (q1 & Q1 & Q2 & Q3). rewrite <- Hcl in Hc. destruct (N2 Hc) as (q2 & R1 & R2 & R3).
    unfold veiled_conns. rewrite A1, A2, A3, B1, B2, B3, Q2, Q3, R2, R3. repeat (split; [assumption|]). split; [|exact V2]. exists q1, q2. auto.
Qed.

Lemma veiled_run C L key iv : crypto_ok C -> forall ops1 ops2, Forall2 same_shape ops1 ops2 -> forall c1 c2, veiled_conns C L key iv c1 c2 ->
  map snd (fst (run C ops1 c1)) = map snd (fst (run C ops2 c2)) /\
  veiled_sender C key iv (sender_of (snd (run C ops1 c1))) (sender_of (snd (run C ops2 c2))).
Proof.
  intros HC ops1 ops2 Ho. induction Ho as [|o1 o2 ops1 ops2 Ho _ IH]; intros c1 c2 Hv.
  - split; [reflexivity|apply Hv].
  - rewrite (run_cons' C o1 ops1 c1 _ _ (surjective_pairing _)), (run_cons' C o2 ops2 c2 _ _ (surjective_pairing _)).
    destruct (veiled_step C L key iv o1 o2 c1 c2 HC Ho Hv) as (F1 & F2 & F3).
    assert (Es : stops o2 (fst (step C o2 c2)) = stops o1 (fst (step C o1 c1))) by (rewrite F1; destruct Ho; reflexivity).
    destruct (step C o1 c1) as [r1 d1]. destruct (step C o2 c2) as [r2 d2]. cbn [fst snd] in *. subst r2. rewrite Es.
    destruct (stops o1 r1) eqn:Est; [split; [reflexivity|exact F2]|].
    assert (Hc : is_close o1 = false) by (destruct o1; try reflexivity; discriminate Est).
    destruct (IH d1 d2 (F3 Hc)) as [G1 G2]. cbn [fst snd map] in *. split; [now rewrite G1|exact G2].
Qed.

(** ** C61 *)

(** Whatever two applications do with a connection, if they make the same calls and write equally many bytes, but not the same
    ones, then every call gives both the same result and the transports were handed the same calls, but for the content of
    protected records: there the same record number, the same key, and contents of the same length. *)
Theorem C61_veiled : forall C L c ops1 ops2 rs1 rs2 c1 c2, crypto_ok C -> 133 <= L -> in_use C L c -> Forall2 same_shape ops1 ops2 ->
  run C ops1 c = (rs1, c1) -> run C ops2 c = (rs2, c2) ->
  map snd rs1 = map snd rs2 /\
  Forall2 (veiled C (write_key c) (write_iv c)) (tx_log (wh_tx (cn_wh c1))) (tx_log (wh_tx (cn_wh c2))).
Proof.
  intros C L c ops1 ops2 rs1 rs2 c1 c2 HC HL Hu Ho R1 R2. destruct (in_use_sending C L c HC HL Hu) as [p Hs].
  assert (Hv : veiled_conns C L (write_key c) (write_iv c) c c).
  { unfold veiled_conns. repeat (split; [reflexivity|]). split; [exists p, p; auto|]. unfold veiled_sender. repeat (split; [reflexivity|]). apply veiled_tx_refl. }
  destruct (veiled_run C L _ _ HC ops1 ops2 Ho c c Hv) as [F1 F2]. rewrite R1, R2 in F1, F2. cbn [fst snd] in F1, F2.
  split; [exact F1|]. apply F2.
Qed.

(** So without the key the two cannot be told apart by record headers, lengths, cuts, flushes or the order of things. *)
Theorem C61_visible : forall C L c ops1 ops2 rs1 rs2 c1 c2, crypto_ok C -> 133 <= L -> in_use C L c -> Forall2 same_shape ops1 ops2 ->
  run C ops1 c = (rs1, c1) -> run C ops2 c = (rs2, c2) ->
  map visible (tx_log (wh_tx (cn_wh c1))) = map visible (tx_log (wh_tx (cn_wh c2))).
Proof.
  intros C L c ops1 ops2 rs1 rs2 c1 c2 HC HL Hu Ho R1 R2. destruct (C61_veiled C L c ops1 ops2 rs1 rs2 c1 c2 HC HL Hu Ho R1 R2) as [_ H].
  induction H as [|e1 e2 l1 l2 He _ IH]; [reflexivity|]. cbn [map]. rewrite IH. f_equal.
  destruct He as [e|n m1 m2 k E]; [reflexivity|]. cbn [visible]. rewrite !(record_length C HC), E. f_equal.
  rewrite !record_parts. cbv zeta. rewrite !inner_length, E. reflexivity.
Qed.

(** ** A concrete case *)

Example C61_case : let c := conn_both in
  in_use toy 300 c /\ Forall2 same_shape [OpWrite [x41; x42]; OpFlush; OpWrite [x43]; OpClose] [OpWrite [x58; x59]; OpFlush; OpWrite [x5a]; OpClose] /\
  tx_log (wh_tx (cn_wh (snd (run toy [OpWrite [x41; x42]; OpFlush; OpWrite [x43]; OpClose] c)))) <>
  tx_log (wh_tx (cn_wh (snd (run toy [OpWrite [x58; x59]; OpFlush; OpWrite [x5a]; OpClose] c)))).
Proof.
  cbv zeta. split; [|split].
  - exists conn_both, []. split; [exact conn_both_established|]. repeat split. constructor.
  - repeat constructor.
  - vm_compute. discriminate.
Qed.

Print Assumptions C61_veiled.
Print Assumptions C61_visible.
