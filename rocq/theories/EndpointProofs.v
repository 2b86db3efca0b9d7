(** * An open connection behaves as the two machines of SpecEndpoint.v *)
From Coq Require Import String List NArith Arith Bool Lia ZArith.
From Coq.Strings Require Import Byte.
From Coq Require Import ZifyBool ZifyNat ZifyN.
From Verif Require Import Base ParseBuffer Buffer Codes Extensions Crypto KeySchedule Config Handshake Record WriteBuffer
  Transport RecordReader ReadBuffer Connection Api BaseProofs SpecWire SpecKeys WriteProofs HsWrite
  SpecRecord SpecRead KeyProofs RecordProofs SpecSend SendProofs HsProofs ConnProofs FrameProofs DecryptProofs ReadProofs RecvProofs ServeProofs
  PropWrite SpecReceiver ReceiverProofs ListenProofs SpecEndpoint.
Import ListNotations.
Local Open Scope list_scope.

(** ** Sending *)

Definition sender_in (w : whalf) (pend : option bytes) : sender := mk_sender pend (k_counter (wst w)) (wh_policy w) (wh_tx w).

Definition whalf_sender (w : whalf) : sender :=
  mk_sender (match wb_hdr (wh_wb w) with Some _ => Some (sub (wb_buf (wh_wb w)) 5 (wb_pos (wh_wb w) - 5)) | None => None end)
    (k_counter (w_state (wh_ks w))) (wh_policy w) (wh_tx w).

Lemma sender_pending L w pend : pending L (wh_wb w) pend -> whalf_sender w = sender_in w pend.
Proof.
  intros [Hl H]. unfold whalf_sender, sender_in. f_equal. destruct pend as [pl|].
  - destruct H as (Hp & -> & _ & R & HR). f_equal. rewrite Hp, HR. replace (5 + length pl - 5) with (length pl) by lia.
    unfold sub. assert (E : length (hdr5 RH_AppData 0) = 5) by reflexivity. rewrite <- E at 1. rewrite skipn_app, skipn_all, Nat.sub_diag. cbn [app skipn].
    rewrite firstn_app, firstn_all, Nat.sub_diag. cbn [firstn]. now rewrite app_nil_r.
  - destruct H as [_ ->]. reflexivity.
Qed.

(** [send] is [emit]; keys stay. *)
Lemma send_emit rec strict w pend o w' : send rec strict w = (o, w') ->
  emit rec strict (sender_in w pend) = (o, sender_in w' None) /\ wh_wb w' = wh_wb w /\
  k_key (wst w') = k_key (wst w) /\ k_iv (wst w') = k_iv (wst w) /\ wh_policy w' = wh_policy w.
Proof.
  unfold send, emit, sender_in. cbn [t_tx t_next t_policy]. unfold bind at 1, on_tx at 1.
  destruct w as [b ks tx pol]. cbn [wh_tx wh_policy]. unfold wst. cbn [wh_ks].
  destruct (tx_write_all rec tx) as [[u|k|x| |] tx1]; cbn [io_error];
    try (intros H; apply pair_equal_spec in H as [<- <-]; repeat split; fail).
  unfold bind at 1, wh_increment, bind at 1, get at 1, bind at 1, lift, increment_counter. cbn [wh_ks].
  destruct (k_counter (w_state ks) <? u64_max)%N eqn:E.
  - unfold put. destruct strict.
    + unfold on_tx. cbn [wh_tx wh_wb wh_ks wh_policy]. destruct (tx_flush tx1) as [[[]|k|x| |] tx2]; cbn [io_error];
        intros H; apply pair_equal_spec in H as [<- <-]; repeat split.
    + unfold ret. intros H; apply pair_equal_spec in H as [<- <-]; repeat split.
  - intros H. apply pair_equal_spec in H as [<- <-]. repeat split.
Qed.

Lemma sender_set w b : sender_in (mk_whalf b (wh_ks w) (wh_tx w) (wh_policy w)) = sender_in w.
Proof. reflexivity. Qed.

Lemma strict_policy p : policy_flush_transport p = strictly p.
Proof. now destruct p. Qed.

Definition kept (w w' : whalf) : Prop := k_key (wst w') = k_key (wst w) /\ k_iv (wst w') = k_iv (wst w).

Lemma flush_emit C L w pend o w' : crypto_ok C -> sending C L w pend -> wh_flush C w = (o, w') ->
  emit_data C (k_key (wst w)) (k_iv (wst w)) (sender_in w pend) = (o, sender_in w' None) \/ pend = None /\ o = Ok tt /\ w' = w.
Proof.
  intros HC Hs H. destruct pend as [pl|]; [left|right].
  - destruct (flush_pending C L w pl HC Hs) as (b & Hf & Hb). rewrite Hf in H.
    destruct (send_emit _ _ _ (Some pl) _ _ H) as [He _]. rewrite sender_set in He. unfold emit_data, sender_in at 1. cbn [t_data t_next t_policy].
    rewrite <- strict_policy. exact He.
  - rewrite (flush_idle C L w Hs) in H. now apply pair_equal_spec in H as [<- <-].
Qed.

(** After a flush, whatever it returned, the buffer is idle. *)
Lemma flush_sender C L w pend o w' : crypto_ok C -> sending C L w pend -> wh_flush C w = (o, w') ->
  emit_data C (k_key (wst w)) (k_iv (wst w)) (sender_in w pend) = (o, sender_in w' None) /\ sending C L w' None /\ kept w w'.
Proof.
  intros HC Hs H. destruct pend as [pl|].
  - destruct (flush_pending C L w pl HC Hs) as (b & Hf & Hb). rewrite Hf in H.
    destruct (send_emit _ _ _ (Some pl) _ _ H) as (He & Hwb & Hk & Hi & _). cbn [wh_wb] in Hwb. unfold wst in Hk, Hi. cbn [wh_ks] in Hk, Hi.
    rewrite sender_set in He. destruct Hs as (HL & Hiv & _). split; [|split; [split; [exact HL|split]|split; assumption]].
    + unfold emit_data, sender_in at 1. cbn [t_data t_next t_policy]. rewrite <- strict_policy. exact He.
    + unfold wst. rewrite Hi. exact Hiv.
    + now rewrite Hwb.
  - rewrite (flush_idle C L w Hs) in H. apply pair_equal_spec in H as [<- <-]. split; [reflexivity|]. split; [exact Hs|]. now split.
Qed.

Lemma write_sender C L w pend op b o w' : crypto_ok C -> sending C L w pend -> wh_write C op b w = (o, w') ->
  exists r pend', transmit C (k_key (wst w)) (k_iv (wst w)) (L - 133) op (OpWrite b) (sender_in w pend) = (r, sender_in w' pend') /\
    r = match o with Ok n => Ok (VCount n) | Err e => Err e | Panic x => Panic x | Diverge => Diverge | Cancelled => Cancelled end /\
    sending C L w' pend' /\ kept w w'.
Proof.
  intros HC Hs H. destruct op.
  2:{ cbn [wh_write] in H. unfold wh_write, fail in H. apply pair_equal_spec in H as [<- <-]. exists (Err MissingHandshake), pend. repeat split; auto. apply Hs. apply Hs. apply Hs. apply Hs. }
  pose proof (write_eval C L w pend b HC Hs) as Hw. cbv zeta in Hw. unfold accepts_n in Hw.
  assert (HL : 133 <= L) by apply Hs. assert (Hiv : length (k_iv (wst w)) = iv_len C) by apply Hs.
  cbn [transmit]. change (t_data (sender_in w pend)) with pend. change (t_next (sender_in w pend)) with (k_counter (wst w)).
  change (t_policy (sender_in w pend)) with (wh_policy w). change (t_tx (sender_in w pend)) with (wh_tx w). cbv zeta.
  change (match pend with Some x => x | None => [] end) with (content pend).
  set (n := Nat.min (length b) (L - 133 - length (content pend))) in *.
  assert (Hlen : length (content pend ++ firstn n b) = length (content pend) + n) by (rewrite app_length, firstn_length; lia).
  destruct Hw as [(Hlt & b1 & Hw & Hb1)|(Heq & b1 & Hw & Hb1)]; rewrite Hw in H.
  - apply pair_equal_spec in H as [<- <-]. destruct (Nat.eqb_spec (length (content pend) + n) (L - 133)) as [E|E]; [lia|].
    exists (Ok (VCount n)), (Some (content pend ++ firstn n b)). split; [reflexivity|]. split; [reflexivity|]. split; [split; [exact HL|split; [exact Hiv|exact Hb1]]|now split].
  - destruct (Nat.eqb_spec (length (content pend) + n) (L - 133)) as [E|E]; [|lia].
    unfold bind at 1 in H. set (w1 := mk_whalf b1 (wh_ks w) (wh_tx w) (wh_policy w)) in *.
    destruct (send (data_record C w (content pend ++ firstn n b)) (policy_flush_transport (wh_policy w)) w1) as [o1 w2] eqn:Es.
    destruct (send_emit _ _ _ (Some (content pend ++ firstn n b)) _ _ Es) as (He & Hwb & Hk & Hi & _).
    unfold emit_data, sender_in at 1. cbn [t_data t_next t_policy]. rewrite <- strict_policy.
    change (mk_sender (Some (content pend ++ firstn n b)) (k_counter (wst w)) (wh_policy w) (wh_tx w)) with (sender_in w1 (Some (content pend ++ firstn n b))).
    fold (data_record C w (content pend ++ firstn n b)). rewrite He.
    assert (G : sending C L w2 None /\ kept w w2) by (split; [split; [exact HL|split; [rewrite Hi; exact Hiv|rewrite Hwb; exact Hb1]]|split; assumption]).
    exists (result_of o1 (VCount n)), None. destruct o1 as [[]|e|x| |]; unfold ret in H; apply pair_equal_spec in H as [<- <-]; (split; [reflexivity|]; split; [reflexivity|exact G]).
Qed.

Lemma sender_of_half c : sender_of c = whalf_sender (cn_wh c).
Proof. reflexivity. Qed.

Lemma sending_sender C L w pend : sending C L w pend -> whalf_sender w = sender_in w pend.
Proof. intros (_ & _ & H). exact (sender_pending L w pend H). Qed.

Lemma transmit_step C L c o r c' pend : crypto_ok C -> sending C L (cn_wh c) pend -> receives o = false -> step C o c = (r, c') ->
  transmit C (write_key c) (write_iv c) (L - 133) (cn_opened c) o (sender_of c) = (r, sender_of c') /\
  (is_close o = false -> exists pend', sending C L (cn_wh c') pend' /\ write_key c' = write_key c /\ write_iv c' = write_iv c) /\
  cn_rd c' = cn_rd c /\ cn_dec c' = cn_dec c /\ cn_opened c' = cn_opened c.
Proof.
  intros HC Hs Ho H. rewrite !sender_of_half, (sending_sender C L _ _ Hs). unfold write_key, write_iv. fold (wst (cn_wh c)).
  assert (G : forall A (m : M whalf tls_error A) (g : A -> value) o1 w1, m (cn_wh c) = (o1, w1) -> (x <- on_wh m ;; ret (g x)) c = (r, c') ->
     r = match o1 with Ok a => Ok (g a) | Err e => Err e | Panic x => Panic x | Diverge => Diverge | Cancelled => Cancelled end /\
     c' = mk_conn (cn_rd c) (cn_dec c) w1 (cn_shared c) (cn_opened c)).
  { intros A m g o1 w1 Em E. unfold bind, on_wh, ret in E. rewrite Em in E. destruct o1; apply pair_equal_spec in E as [<- <-]; auto. }
  destruct o as [b| |p|dst| |k|ops fin|]; try discriminate Ho; cbn [step is_close] in H |- *.
  - unfold cn_write in H. change ((x <- on_wh (wh_write C (cn_opened c) b) ;; ret (VCount x)) c = (r, c')) in H.
    destruct (wh_write C (cn_opened c) b (cn_wh c)) as [o1 w1] eqn:Ew. destruct (G _ _ _ _ _ Ew H) as [-> ->].
    destruct (write_sender C L _ _ _ _ _ _ HC Hs Ew) as (r & pend' & Ht & Hr & Hs' & Hk). cbn [cn_wh cn_rd cn_dec cn_opened].
    rewrite Ht, Hr, (sending_sender C L _ _ Hs'). split; [reflexivity|]. split; [|auto]. intros _. exists pend'. split; [exact Hs'|exact Hk].
  - destruct (wh_flush C (cn_wh c)) as [o1 w1] eqn:Ew. destruct (G _ _ (fun _ => VUnit) _ _ Ew H) as [-> ->].
    destruct (flush_sender C L _ _ _ _ HC Hs Ew) as (Ht & Hs' & Hk). cbn [cn_wh cn_rd cn_dec cn_opened transmit].
    rewrite Ht, (sending_sender C L _ _ Hs'). split; [now destruct o1|]. split; [|auto]. intros _. exists None. split; [exact Hs'|exact Hk].
  - unfold cn_set_policy, bind, on_wh, modify, ret in H. apply pair_equal_spec in H as [<- <-]. cbn [cn_wh cn_rd cn_dec cn_opened transmit].
    assert (Hs' : sending C L (mk_whalf (wh_wb (cn_wh c)) (wh_ks (cn_wh c)) (wh_tx (cn_wh c)) p) pend) by exact Hs.
    rewrite (sending_sender C L _ _ Hs'). split; [reflexivity|]. split; [|auto]. intros _. exists pend. split; [exact Hs'|now split].
  - destruct (wh_flush C (cn_wh c)) as [o1 w1] eqn:Ew. destruct (flush_sender C L _ _ _ _ HC Hs Ew) as (Ht & Hs' & Hk1 & Hk2).
    cbn [transmit]. rewrite Ht. unfold bind at 1 in H. unfold cn_close, bind at 1, cn_flush, on_wh at 1 in H. rewrite Ew in H.
    destruct o1 as [[]|e|x| |];
      try (apply pair_equal_spec in H as [<- <-]; cbn [cn_wh cn_rd cn_dec cn_opened]; rewrite (sending_sender C L _ _ Hs'); split; [reflexivity|]; split; [discriminate|auto]; fail).
    unfold bind at 1, get at 1 in H. cbn [cn_opened] in H.
    set (c1 := mk_conn (cn_rd c) (cn_dec c) w1 (cn_shared c) (cn_opened c)) in *.
    destruct (close_alert C L c1 HC Hs') as (b & Hb & He). change (cn_opened c1) with (cn_opened c) in He. rewrite He in H. clear He.
    cbn [cn_wh c1 cn_rd cn_dec cn_shared cn_opened] in H.
    match type of H with context [send ?s true ?w] => destruct (send s true w) as [o2 w2] eqn:Es end.
    destruct (send_emit _ _ _ None _ _ Es) as (He & Hwb & _). rewrite sender_set in He. cbn [sender_in t_next].
    match type of He with emit ?s _ _ = _ => assert (Ef : s = farewell C (k_key (wst (cn_wh c))) (k_iv (wst (cn_wh c))) (cn_opened c) (k_counter (wst w1))) end.
    { rewrite <- Hk1, <- Hk2. unfold farewell. destruct (cn_opened c); reflexivity. }
    rewrite Ef in He. rewrite He. cbn [wh_wb] in Hwb.
    assert (Es2 : whalf_sender w2 = sender_in w2 None) by (unfold whalf_sender, sender_in; rewrite Hwb, Hb; reflexivity).
    destruct o2 as [[]|e|x| |]; unfold ret in H; apply pair_equal_spec in H as [<- <-]; cbn [cn_wh cn_rd cn_dec cn_opened]; rewrite Es2;
      (split; [reflexivity|]; split; [discriminate|auto]).
Qed.

(** ** Both directions *)

Lemma endpoint_step C L W c o r c1 pend : crypto_ok C -> mirrors C W c -> sending C L (cn_wh c) pend -> step C o c = (r, c1) ->
  act C (session_of L c) (endpoint_of c) o r (endpoint_of c1) /\
  (stops o r = false -> mirrors C W c1 /\ session_of L c1 = session_of L c /\ exists pend1, sending C L (cn_wh c1) pend1) /\
  (final o r -> stops o r = true).
Proof.
  intros HC Hm Hs E. destruct (receives o) eqn:Ho.
  - destruct (recv_step C W c o r c1 HC (proj1 Hm) Ho E) as (Hwh & _ & _).
    assert (Es : sender_of c1 = sender_of c) by (unfold sender_of; now rewrite Hwh).
    assert (Hcl : is_close o = false) by (destruct o; try discriminate; reflexivity).
    destruct (machine_step C W c o r c1 HC Hm Ho E) as [(x & -> & Hx)|(Hr & Hm1 & (S1 & S2 & S3) & Hret)].
    + split; [unfold endpoint_of; rewrite Es; apply ac_receive; [exact Ho|apply Hx]|].
      assert (Est : stops o (Panic x) = true) by (destruct o; reflexivity). rewrite Est. split; [discriminate|auto].
    + split; [unfold endpoint_of; rewrite Es; apply ac_receive; [exact Ho|exact Hr]|]. split.
      * intros _. split; [exact Hm1|]. split; [unfold session_of, write_key, write_iv; now rewrite S1, S2, S3, Hwh|]. exists pend. now rewrite Hwh.
      * intros [Hf|(x & ->)]; [congruence|contradiction].
  - destruct (transmit_step C L c o r c1 pend HC Hs Ho E) as (Ht & Hn & E1 & E2 & E3).
    assert (Er : receiver_of c1 = receiver_of c) by (unfold receiver_of, unread, next_seq, incoming; now rewrite E1, E2, E3).
    split; [unfold endpoint_of; rewrite Er; apply ac_send; [exact Ho|exact Ht]|]. split.
    + intros Hst. assert (Hcl : is_close o = false) by (destruct o; try reflexivity; discriminate Hst).
      destruct (Hn Hcl) as (pend1 & Hs1 & K1 & K2). split; [|split; [|now exists pend1]].
      * unfold mirrors, crinv. rewrite E1, E2. exact Hm.
      * unfold session_of, read_key, read_iv, room. now rewrite E1, K1, K2.
    + intros [Hf|(x & ->)]; [destruct o; try discriminate; reflexivity|destruct o; reflexivity].
Qed.

Theorem endpoint_run C L W : crypto_ok C -> forall ops c rs c' pend, mirrors C W c -> sending C L (cn_wh c) pend -> run C ops c = (rs, c') ->
  acts C (session_of L c) (endpoint_of c) rs (endpoint_of c').
Proof.
  intros HC. induction ops as [|o ops IH]; intros c rs c' pend Hm Hs H.
  { cbn in H. apply pair_equal_spec in H as [<- <-]. constructor. }
  destruct (step C o c) as [r c1] eqn:E. rewrite (run_cons' C o ops c r c1 E) in H.
  destruct (endpoint_step C L W c o r c1 pend HC Hm Hs E) as (Ha & Hn & Hf). destruct (stops o r) eqn:Es.
  - apply pair_equal_spec in H as [<- <-]. eapply as_call; [exact Ha|auto|constructor].
  - destruct (run C ops c1) as [rs1 c2] eqn:E1. cbn [fst snd] in H. apply pair_equal_spec in H as [<- <-].
    destruct (Hn eq_refl) as (Hm1 & Hse & pend1 & Hs1). eapply as_call; [exact Ha| |].
    + intros Hx. apply Hf in Hx. discriminate.
    + rewrite <- Hse. exact (IH c1 rs1 c2 pend1 Hm1 Hs1 E1).
Qed.

Lemma act_unique C k s o r r' s1 s1' : act C k s o r s1 -> act C k s o r' s1' ->
  r = r' /\ e_send s1 = e_send s1' /\ ((forall x, r <> Panic x) -> s1 = s1').
Proof.
  intros H H'. destruct H as [s t o r s1 Ho Hr|s t o r t1 Ho Ht]; inversion H' as [? ? ? ? s2 Ho' Hr'|? ? ? ? t2 Ho' Ht']; subst; try congruence; cbn [e_send].
  - destruct (receive_unique _ _ _ _ _ _ _ _ _ _ Ho Hr Hr') as [A S]. split; [exact A|]. split; [reflexivity|]. intros Hx. now rewrite (S Hx).
  - rewrite Ht in Ht'. apply pair_equal_spec in Ht' as [-> ->]. split; [reflexivity|]. auto.
Qed.

Theorem acts_unique C k s rs s1 : acts C k s rs s1 -> forall rs' s1', acts C k s rs' s1' -> map fst rs = map fst rs' ->
  rs = rs' /\ e_send s1 = e_send s1' /\ (Forall (fun a => forall x, snd a <> Panic x) rs -> s1 = s1').
Proof.
  induction 1 as [s|s o r s1 rs s2 Ha Hf Hrest IH]; intros rs' s1' H' E.
  - destruct rs'; [|discriminate]. inversion H'. subst. split; [reflexivity|auto].
  - destruct rs' as [|[o' r'] rs']; [discriminate|]. cbn [map fst] in E. injection E as <- E.
    inversion H' as [|? ? ? s3 ? ? Ha' Hf' Hl']; subst. destruct (act_unique _ _ _ _ _ _ _ _ Ha Ha') as (A & St & S).
    assert (Hr : (exists x, r = Panic x) \/ forall x, r <> Panic x) by (destruct r; eauto; right; discriminate).
    destruct Hr as [(x & ->)|Hr].
    + specialize (Hf (or_intror (ex_intro _ x eq_refl))). subst rs. destruct rs'; [|discriminate]. inversion Hl'. inversion Hrest. subst.
      split; [congruence|]. split; [exact St|].
      intros HF. inversion HF as [|? ? Hx _]. now destruct (Hx x).
    + specialize (S Hr). subst s3. destruct (IH _ _ Hl' E) as (A1 & St1 & S1).
      split; [congruence|]. split; [exact St1|]. intros HF. inversion HF. now apply S1.
Qed.

(** Every call has a result. *)
Theorem act_total C k s o : exists r s', act C k s o r s'.
Proof.
  destruct s as [s t]. destruct (receives o) eqn:Ho.
  - destruct (receive_total C (n_rkey k) (n_riv k) (n_room k) s o Ho) as (r & s' & H). exists r, (mk_endpoint s' t). now apply ac_receive.
  - destruct (transmit C (n_wkey k) (n_wiv k) (n_cap k) (q_open s) o t) as [r t'] eqn:E. exists r, (mk_endpoint s t'). now apply ac_send.
Qed.

(** ** Two connections *)

Theorem twin_run C L1 L2 W1 W2 : crypto_ok C -> forall ops c1 c2 rs1 rs2 c1' c2' p1 p2, mirrors C W1 c1 -> mirrors C W2 c2 ->
  sending C L1 (cn_wh c1) p1 -> sending C L2 (cn_wh c2) p2 -> session_of L1 c1 = session_of L2 c2 -> endpoint_of c1 = endpoint_of c2 ->
  run C ops c1 = (rs1, c1') -> run C ops c2 = (rs2, c2') ->
  rs1 = rs2 /\ sender_of c1' = sender_of c2' /\ (Forall (fun a => forall x, snd a <> Panic x) rs1 -> endpoint_of c1' = endpoint_of c2').
Proof.
  intros HC. induction ops as [|o ops IH]; intros c1 c2 rs1 rs2 c1' c2' p1 p2 M1 M2 S1 S2 Es Ee H1 H2.
  { cbn in H1, H2. apply pair_equal_spec in H1 as [<- <-]. apply pair_equal_spec in H2 as [<- <-]. split; [reflexivity|]. split; [|auto]. exact (f_equal e_send Ee). }
  destruct (step C o c1) as [r1 d1] eqn:E1. rewrite (run_cons' C o ops c1 r1 d1 E1) in H1.
  destruct (step C o c2) as [r2 d2] eqn:E2. rewrite (run_cons' C o ops c2 r2 d2 E2) in H2.
  destruct (endpoint_step C L1 W1 c1 o r1 d1 p1 HC M1 S1 E1) as (A1 & N1 & F1).
  destruct (endpoint_step C L2 W2 c2 o r2 d2 p2 HC M2 S2 E2) as (A2 & N2 & F2).
  rewrite <- Es, <- Ee in A2. destruct (act_unique _ _ _ _ _ _ _ _ A1 A2) as (Al & Sn & Sa). pose proof (f_equal (stops o) Al) as Est.
  destruct (stops o r1) eqn:S; rewrite <- Est in H2, N2.
  - apply pair_equal_spec in H1 as [<- <-]. apply pair_equal_spec in H2 as [<- <-].
    split; [congruence|]. split; [exact Sn|]. intros HF. inversion HF. now apply Sa.
  - destruct (run C ops d1) as [q1 e1] eqn:R1. destruct (run C ops d2) as [q2 e2] eqn:R2. cbn [fst snd] in H1, H2.
    apply pair_equal_spec in H1 as [<- <-]. apply pair_equal_spec in H2 as [<- <-].
    destruct (N1 eq_refl) as (M1' & Q1 & p1' & S1'). destruct (N2 eq_refl) as (M2' & Q2 & p2' & S2').
    assert (Hx : forall x, r1 <> Panic x). { intros x ->. destruct o; discriminate S. }
    destruct (IH d1 d2 q1 q2 e1 e2 p1' p2' M1' M2' S1' S2' ltac:(now rewrite Q1, Q2) (Sa Hx) R1 R2) as (B1 & B2 & B3).
    split; [congruence|]. split; [exact B2|]. intros HF. inversion HF. now apply B3.
Qed.

Lemma receive_open C key iv room s o r s' : receive C key iv room s o r s' -> q_open s = true -> r <> Err ConnectionClosed -> (forall x, r <> Panic x) ->
  q_open s' = true.
Proof.
  intros [? ? ? ? ? _ _ _|? ? Ho _|? ? ? ? ? ? ? ? ? _ _ _ _|? ? ? ? ? ? _ _|? ? ? ? ? _ _|? ? ? x ? ? ? _ _] Hop Hc Hx; cbn [q_open] in *; try reflexivity; try congruence; destruct (Hx x); reflexivity.
Qed.

Lemma receive_ends C key iv room s o r s' : receive C key iv room s o r s' -> r <> Diverge.
Proof. intros [? ? ? ? ? _ [v ->] _|? ? _ _|? ? ? ? ? ? ? ? ? _ _ [v ->] _|? ? ? ? ? ? _ _|? ? ? ? ? _ _|? ? ? x ? ? ? _ _]; discriminate. Qed.

Lemma act_inv C k e o r e' : act C k e o r e' ->
  receives o = true /\ receive C (n_rkey k) (n_riv k) (n_room k) (e_recv e) o r (e_recv e') /\ e_send e' = e_send e \/
  receives o = false /\ transmit C (n_wkey k) (n_wiv k) (n_cap k) (q_open (e_recv e)) o (e_send e) = (r, e_send e') /\ e_recv e' = e_recv e.
Proof. intros []; [left|right]; cbn [e_recv e_send]; auto. Qed.

(** Whatever is received, as long as the session stays open the sending side does the same. *)
Theorem sends_run C L1 L2 W1 W2 : crypto_ok C -> forall ops c1 c2 rs1 rs2 c1' c2' p1 p2, mirrors C W1 c1 -> mirrors C W2 c2 ->
  sending C L1 (cn_wh c1) p1 -> sending C L2 (cn_wh c2) p2 ->
  write_key c1 = write_key c2 -> write_iv c1 = write_iv c2 -> L1 - 133 = L2 - 133 -> sender_of c1 = sender_of c2 -> cn_opened c1 = true -> cn_opened c2 = true ->
  run C ops c1 = (rs1, c1') -> run C ops c2 = (rs2, c2') ->
  let fine rs := Forall (fun a : op * outcome tls_error value => snd a <> Err ConnectionClosed /\ forall x, receives (fst a) = true -> snd a <> Panic x) rs in
  fine rs1 -> fine rs2 ->
  let sends := filter (fun a : op * outcome tls_error value => negb (receives (fst a))) in
  sends rs1 = sends rs2 /\ sender_of c1' = sender_of c2'.
Proof.
  intros HC ops c1 c2 rs1 rs2 c1' c2' p1 p2 M1 M2 S1 S2 Ek Ei El Es O1 O2 H1 H2 fine G1 G2 sends. subst fine sends.
  revert c1 c2 rs1 rs2 c1' c2' p1 p2 M1 M2 S1 S2 Ek Ei Es O1 O2 H1 H2 G1 G2.
  induction ops as [|o ops IH]; intros c1 c2 rs1 rs2 c1' c2' p1 p2 M1 M2 S1 S2 Ek Ei Es O1 O2 H1 H2 G1 G2.
  { cbn in H1, H2. apply pair_equal_spec in H1 as [<- <-]. apply pair_equal_spec in H2 as [<- <-]. split; [reflexivity|]. exact Es. }
  destruct (step C o c1) as [r1 d1] eqn:E1. rewrite (run_cons' C o ops c1 r1 d1 E1) in H1.
  destruct (step C o c2) as [r2 d2] eqn:E2. rewrite (run_cons' C o ops c2 r2 d2 E2) in H2.
  destruct (endpoint_step C L1 W1 c1 o r1 d1 p1 HC M1 S1 E1) as (A1 & N1 & F1).
  destruct (endpoint_step C L2 W2 c2 o r2 d2 p2 HC M2 S2 E2) as (A2 & N2 & F2).
  assert (B : (receives o = false -> r1 = r2) /\ sender_of d1 = sender_of d2 /\ stops o r1 = stops o r2 /\
     (cn_opened d1 = true /\ cn_opened d2 = true)).
  { assert (G1' : snd (o, r1) <> Err ConnectionClosed /\ forall x, receives o = true -> r1 <> Panic x) by (destruct (stops o r1); apply pair_equal_spec in H1 as [<- _]; now inversion G1).
    assert (G2' : snd (o, r2) <> Err ConnectionClosed /\ forall x, receives o = true -> r2 <> Panic x) by (destruct (stops o r2); apply pair_equal_spec in H2 as [<- _]; now inversion G2).
    cbn [snd] in G1', G2'. destruct G1' as [X1 Y1]. destruct G2' as [X2 Y2].
    apply act_inv in A1. apply act_inv in A2. cbn [endpoint_of e_recv e_send] in A1, A2.
    destruct A1 as [(Ho & Hr & Ea)|(Ho & Ht & Ea)]; destruct A2 as [(Ho2 & Hr2 & Ea2)|(Ho2 & Ht2 & Ea2)]; try congruence.
    - split; [congruence|]. split; [congruence|]. split.
      + assert (Hs : forall r, r <> Diverge -> (forall x, r <> Panic x) -> stops o r = false)
          by (intros r Hd Hp; destruct o; try discriminate Ho; destruct r as [v|e|x| |]; try reflexivity; try congruence; now destruct (Hp x)).
        rewrite !Hs; eauto using receive_ends.
      + split; [exact (receive_open _ _ _ _ _ _ _ _ Hr O1 X1 (fun x => Y1 x Ho))|exact (receive_open _ _ _ _ _ _ _ _ Hr2 O2 X2 (fun x => Y2 x Ho))].
    - cbn [session_of n_wkey n_wiv n_cap] in Ht, Ht2. rewrite Ek, Ei, El, Es in Ht. change (q_open (receiver_of c1)) with (cn_opened c1) in Ht.
      change (q_open (receiver_of c2)) with (cn_opened c2) in Ht2. rewrite O1 in Ht. rewrite O2, Ht in Ht2.
      apply pair_equal_spec in Ht2 as [Ex Ey]. subst r2. split; [auto|]. split; [exact Ey|]. split; [reflexivity|].
      split; [exact (eq_trans (f_equal q_open Ea) O1)|exact (eq_trans (f_equal q_open Ea2) O2)]. }
  destruct B as (B1 & B2 & Est & B3 & B4).
  destruct (stops o r1) eqn:S; rewrite <- Est in H2, N2.
  - apply pair_equal_spec in H1 as [<- <-]. apply pair_equal_spec in H2 as [<- <-]. split; [|exact B2]. cbn [filter fst].
    destruct (receives o); [reflexivity|]. cbn [negb]. now rewrite B1.
  - destruct (run C ops d1) as [q1 e1] eqn:R1. destruct (run C ops d2) as [q2 e2] eqn:R2. cbn [fst snd] in H1, H2.
    apply pair_equal_spec in H1 as [<- <-]. apply pair_equal_spec in H2 as [<- <-].
    destruct (N1 eq_refl) as (M1' & Q1 & p1' & S1'). destruct (N2 eq_refl) as (M2' & Q2 & p2' & S2').
    inversion G1 as [|? ? _ G1']. inversion G2 as [|? ? _ G2'].
    destruct (IH d1 d2 q1 q2 e1 e2 p1' p2' M1' M2' S1' S2') as [C1 C2]; auto.
    + pose proof (f_equal n_wkey Q1) as K1. pose proof (f_equal n_wkey Q2) as K2. cbn in K1, K2. congruence.
    + pose proof (f_equal n_wiv Q1) as K1. pose proof (f_equal n_wiv Q2) as K2. cbn in K1, K2. congruence.
    + split; [|exact C2]. cbn [filter fst]. destruct (receives o); [exact C1|]. cbn [negb]. now rewrite B1, C1.
Qed.
