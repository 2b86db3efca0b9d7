(** * C53: how each handshake that fails ends *)
From Coq Require Import String List NArith Arith Bool Lia ZArith.
From Coq.Strings Require Import Byte.
From Verif Require Import Base ParseBuffer Buffer Codes Extensions Crypto KeySchedule Config Handshake Record WriteBuffer
  Transport RecordReader ReadBuffer Connection Api BaseProofs SpecWire SpecCodes SpecMessages WireProofs SpecKeys SpecRecord SpecSend SpecRead SpecHandshake
  SpecHello PropHello SpecOpen SpecComplete RecordProofs CompleteProofs PropComplete SpecFailure FailureProofs CaseProofs Toy ToyRun ToyServer PropPanic.
Import ListNotations.
Local Open Scope list_scope.

(** [open], given a transport that does not fail when written to, fails as follows.

    If what the server sends does not start with a record that can be read, the error says so.  If the
    first record is an alert, the error tells which; if it is a message that cannot be decoded, the error is the
    one for its first fault (SpecDefect.v); if it is another message than the ServerHello, or a
    ServerHello without a share that goes with the client's secret, or no handshake record at all, there is
    an error for each of these.  In all these cases only the ClientHello was sent. *)
Theorem C53_first : forall V C (p : provider V) cfg wbuf tx v v0, crypto_ok C -> length (p_random p) = 32 ->
  hello_size cfg (length (c_pub C (p_secret p))) (hash_len C) <= length wbuf ->
  Forall (eq WrOk) (tx_wr tx) -> Forall (eq FlOk) (tx_fl tx) -> told p cfg v v0 ->
  exists hello, forall rbuf rx c0, cn_new C rbuf wbuf rx tx = Ok c0 -> chunked rx ->
    (forall e, unreadable (length rbuf) (stream rx) e ->
       exists c, cn_open C p cfg v c0 = (Err e, c) /\ sent_log c = tx_log tx ++ goes_out (SpecHandshake.hello_record hello)) /\
    (forall h f rest e, stream rx = h ++ f ++ rest -> framed h f -> length f <= length rbuf -> first_fails C (p_secret p) h f e ->
       exists c, cn_open C p cfg v c0 = (Err e, c) /\ sent_log c = tx_log tx ++ goes_out (SpecHandshake.hello_record hello)).
Proof.
  intros V C p cfg wbuf tx v v0 HC Hr Hs H1 H2 Ht. destruct (failures C p cfg wbuf tx v v0 HC Hr Hs (conj H1 H2) Ht) as (hello & _ & H).
  exists hello. intros rbuf rx c0 Hnew Hch. destruct (H rbuf rx c0 Hnew Hch) as (A & B & _). auto.
Qed.

(** If the server's flight began well - a ServerHello the client can use, records whose messages it takes,
    the Finished not yet among them - the next record, if it is not good, ends the handshake as
    [record_fails] tells.  If it brings bytes that are no message, the error is that for their first fault; if
    that is [AbortHandshake] (an extension where it must not be) and the record was protected, the alert is sent. *)
Theorem C53_later : forall V C (p : provider V) cfg wbuf tx v v0, crypto_ok C -> length (p_random p) = 32 ->
  hello_size cfg (length (c_pub C (p_secret p))) (hash_len C) <= length wbuf ->
  Forall (eq WrOk) (tx_wr tx) -> Forall (eq FlOk) (tx_fl tx) -> told p cfg v v0 ->
  exists hello,
    (forall rbuf rx c0, cn_new C rbuf wbuf rx tx = Ok c0 ->
       exists evs, sent_log (snd (cn_open C p cfg v c0)) = tx_log tx ++ goes_out (SpecHandshake.hello_record hello) ++ evs) /\
    forall rbuf rx c0 x ms n v1 rest, cn_new C rbuf wbuf rx tx = Ok c0 -> chunked rx ->
      x_hello x = hello -> begun C p (length rbuf) (stream rx) x ms n v0 v1 rest ->
      secrets_ok C (option_map fst (cfg_psk cfg)) (p_secret p) x ->
      (forall e, unreadable (length rbuf) rest e ->
         exists c, cn_open C p cfg v c0 = (Err e, c) /\ sent_log c = tx_log tx ++ goes_out (SpecHandshake.hello_record hello)) /\
      forall h f rest', rest = h ++ f ++ rest' -> framed h f -> length f <= length rbuf ->
        (forall o, record_fails C p (x_server x) (x_skey x) (x_siv x) (x_hellos x ++ raw ms) n v1 h f o ->
           exists c, cn_open C p cfg v c0 = (o, c) /\
             sent_log c = tx_log tx ++ goes_out (SpecHandshake.hello_record hello) ++ told_peer o) /\
        (forall e, record_garbled C p (x_server x) (x_skey x) (x_siv x) (x_hellos x ++ raw ms) n v1 h f e ->
           exists c, cn_open C p cfg v c0 = (Err e, c) /\
             sent_log c = tx_log tx ++ goes_out (SpecHandshake.hello_record hello) ++
               (if Byte.eqb (List.hd x00 h) ty_data then told_peer (Err e) else [])).
Proof.
  intros V C p cfg wbuf tx v v0 HC Hr Hs H1 H2 Ht. destruct (failures C p cfg wbuf tx v v0 HC Hr Hs (conj H1 H2) Ht) as (hello & Hsent & H).
  exists hello. split; [exact Hsent|]. intros rbuf rx c0 x ms n v1 rest Hnew Hch Hx Hbg Hsec.
  destruct (H rbuf rx c0 Hnew Hch) as (_ & _ & D). destruct (D x ms n v1 rest Hx Hbg Hsec) as [E F]. split; [exact E|].
  intros h f rest' Hrest Hf Hl. destruct (F h f rest' Hrest Hf Hl) as [G K]. split.
  - intros o Ho. destruct (G o Ho) as (c & A & B). exists c. split; [exact A|]. rewrite B. destruct o as [[]|[]| | |]; reflexivity.
  - intros e Hg. destruct (K e Hg) as (c & A & B). exists c. split; [exact A|]. rewrite B. destruct (Byte.eqb _ _); [|reflexivity]. destruct e; reflexivity.
Qed.

(** In particular an authentic record with nothing inside makes [open] panic, always (connection.rs:62). *)
Theorem C50_empty_panics : forall V C (p : provider V) cfg wbuf tx v v0, crypto_ok C -> length (p_random p) = 32 ->
  hello_size cfg (length (c_pub C (p_secret p))) (hash_len C) <= length wbuf ->
  Forall (eq WrOk) (tx_wr tx) -> Forall (eq FlOk) (tx_fl tx) -> told p cfg v v0 ->
  exists hello,
    (forall rbuf rx c0, cn_new C rbuf wbuf rx tx = Ok c0 ->
       exists evs, sent_log (snd (cn_open C p cfg v c0)) = tx_log tx ++ goes_out (SpecHandshake.hello_record hello) ++ evs) /\
    forall rbuf rx c0 x ms n v1 h f rest, cn_new C rbuf wbuf rx tx = Ok c0 -> chunked rx ->
      x_hello x = hello -> begun C p (length rbuf) (stream rx) x ms n v0 v1 (h ++ f ++ rest) ->
      secrets_ok C (option_map fst (cfg_psk cfg)) (p_secret p) x ->
      framed h f -> length f <= length rbuf -> hd_error h = Some ty_data ->
      rfc_open C (x_skey x) (x_siv x) n h f = Some [] ->
      exists c, cn_open C p cfg v c0 = (Panic PUnwrap, c).
Proof.
  intros V C p cfg wbuf tx v v0 HC Hr Hs H1 H2 Ht. destruct (C53_later V C p cfg wbuf tx v v0 HC Hr Hs H1 H2 Ht) as (hello & Hsent & H).
  exists hello. split; [exact Hsent|]. intros rbuf rx c0 x ms n v1 h f rest Hnew Hch Hx Hbg Hsec Hf Hl Hty Ho.
  destruct (H rbuf rx c0 x ms n v1 (h ++ f ++ rest) Hnew Hch Hx Hbg Hsec) as [_ G]. destruct (G h f rest eq_refl Hf Hl) as [K _].
  destruct (K (Panic PUnwrap)) as (c & Hc & _); [now apply rf_empty|eauto].
Qed.

(** There are no other ways: whatever the server sends, one of these cases is there, or the flight is
    completed (and C51 tells whether [open] succeeds). *)
Theorem C53_no_other : forall V C (p : provider V) psk room hello v0 w, crypto_ok C -> (N.of_nat (length w) < 2 ^ 64)%N ->
  (exists e, unreadable room w e) \/
  (exists h f rest, w = h ++ f ++ rest /\ framed h f /\ length f <= room /\
     exists e, first_fails C (p_secret p) h f e) \/
  exists x ms n v1 rest, x_hello x = hello /\ begun C p room w x ms n v0 v1 rest /\ secrets_ok C psk (p_secret p) x /\
    ((exists e, unreadable room rest e) \/
     exists h f rest', rest = h ++ f ++ rest' /\ framed h f /\ length f <= room /\
       ((exists o, record_fails C p (x_server x) (x_skey x) (x_siv x) (x_hellos x ++ raw ms) n v1 h f o) \/
        (exists e, record_garbled C p (x_server x) (x_skey x) (x_siv x) (x_hellos x ++ raw ms) n v1 h f e) \/
        completes C p (x_server x) (x_skey x) (x_siv x) (x_hellos x ++ raw ms) n v1 h f)).
Proof. intros. now apply handshake_cases. Qed.

(** ** Concrete cases *)

(** The handshake of ToyServer.v up to its third record; then [rest]. *)
Definition started (rest : bytes) : bytes := concat (firstn 3 full_records) ++ rest.

Lemma full_begun rest : begun toy full_provider 400 (started rest) full_exchange (firstn 2 (x_msgs full_exchange)) 1 1 1 rest.
Proof.
  destruct full_understood as [H1 H2].
  assert (Hp : Forall (part_fits toy 400) (firstn 2 full_parts)) by (repeat constructor; vm_compute; lia || reflexivity).
  destruct (parts_carried toy (x_skey full_exchange) (x_siv full_exchange) 400 toy_ok (firstn 2 full_parts) 0 Hp) as (P1 & P2 & _).
  exists (firstn 5 (plain_handshake srv_hello)), [], (parts_records toy (x_skey full_exchange) (x_siv full_exchange) 0 (firstn 2 full_parts)).
  split. { unfold started. f_equal. }
  split; [split; reflexivity|]. split; [reflexivity|]. split; [exact H1|].
  split. { exact (proj1 (proj2 full_followable)). }
  split; [exact P1|]. split.
  { inversion H2 as [|? ? [U1 _] H3]; subst. inversion H3 as [|? ? [U2 _] _]; subst.
    eapply mt_cons; [split; [exact U1|split; [exact I|reflexivity]]|]. eapply mt_cons; [split; [exact U2|split; [exact I|reflexivity]]|]. constructor. }
  split. { intros (m & Hin & Hf). cbn in Hin. destruct Hin as [<-|[<-|[]]]; exact Hf. }
  split. { constructor; [vm_compute; lia|exact P2]. }
  split; [vm_compute; reflexivity|reflexivity].
Qed.

(** What the theorem needs of the client of these examples. *)
Lemma full_pinned : exists hello,
  (forall rbuf rx c0, cn_new toy rbuf (zeros 300) rx silent = Ok c0 ->
     exists evs, sent_log (snd (cn_open toy full_provider small_config 0 c0)) = goes_out (SpecHandshake.hello_record hello) ++ evs) /\
  x_hello full_exchange = hello.
Proof.
  destruct full_hypotheses as ((evs & Hs) & _ & Hsz & Ht & _).
  destruct (C44_handshake nat toy full_provider small_config (zeros 300) silent 0 1 toy_ok eq_refl Hsz (Forall_nil _) (Forall_nil _) Ht) as (hello & Hpin & _).
  exists hello. split; [exact Hpin|]. destruct (Hpin _ _ _ full_start_new) as [evs' E]. rewrite E in Hs. exact (goes_out_inj _ _ _ _ (eq_sym Hs)).
Qed.

(** Three servers that stop in the middle: with an alert (handshake_failure); with a record that is
    authentic and empty; with a Finished that confirms nothing. *)
Definition full_key : bytes := Eval vm_compute in x_skey full_exchange.
Definition hollow_second : bytes := Eval vm_compute in
  let '(ct, tag) := c_seal toy full_key (rfc_nonce (x_siv full_exchange) 1) (rfc_header 16) [] in ct ++ tag.
Definition false_finished : bytes := Eval vm_compute in hs_message 20 (repeat x55 (hash_len toy)).
Definition false_second : bytes := Eval vm_compute in
  skipn 5 (rfc_record toy full_key (x_siv full_exchange) 1 ty_handshake (full_cert ++ false_finished) 3).

Example stopped_meets : forall h f o,
  (h, f, o) = ([x15; x03; x03; x00; x02], [x02; x28], Err InvalidRecord) \/
  (h, f, o) = (rfc_header 16, hollow_second, Panic PUnwrap) \/
  (h, f, o) = (rfc_header (length false_second), false_second, Err InvalidSignature) ->
  framed h f /\ length f <= 400 /\
  record_fails toy full_provider (x_server full_exchange) (x_skey full_exchange) (x_siv full_exchange)
    (x_hellos full_exchange ++ raw (firstn 2 (x_msgs full_exchange))) 1 1 h f o.
Proof.
  intros h f o [E|[E|E]]; apply pair_equal_spec in E as [E ->]; apply pair_equal_spec in E as [-> ->].
  - split; [split; reflexivity|]. split; [vm_compute; lia|]. apply (rf_alert _ _ _ _ _ _ _ _ _ _ AL_Fatal AD_HandshakeFailure); [reflexivity|]. exists []. reflexivity.
  - split; [split; reflexivity|]. split; [vm_compute; lia|]. apply rf_empty; [reflexivity|]. vm_compute. reflexivity.
  - split; [split; reflexivity|]. split; [vm_compute; lia|].
    apply (rf_sealed _ _ _ _ _ _ _ _ _ _ ((full_cert ++ false_finished) ++ ty_handshake :: repeat x00 3) ty_handshake (raw [nth 2 full_before ([], M_NewSessionTicket)] ++ false_finished ++ []));
      [reflexivity|vm_compute; reflexivity|vm_compute; reflexivity|].
    destruct full_understood as [_ H2]. rewrite Forall_forall in H2.
    apply (cf_message _ _ _ _ _ _ 2 _ (M_Finished (repeat x55 (hash_len toy)))).
    + eapply mt_cons; [split; [apply (H2 (nth 2 full_before ([], M_NewSessionTicket))); right; right; now left|split; [exact I|reflexivity]]|constructor].
    + split; [split; [exists [x00; x00; x20], (repeat x55 (hash_len toy)); repeat split|exact I]|]. split; [discriminate|]. split; [vm_compute; discriminate|reflexivity].
Qed.

(** So [open] ends, by the theorem, with these outcomes. *)
Example stopped_ends : forall h f o c0,
  (h, f, o) = ([x15; x03; x03; x00; x02], [x02; x28], Err InvalidRecord) \/
  (h, f, o) = (rfc_header 16, hollow_second, Panic PUnwrap) \/
  (h, f, o) = (rfc_header (length false_second), false_second, Err InvalidSignature) ->
  cn_new toy (zeros 400) (zeros 300) [RxData (started (h ++ f))] silent = Ok c0 ->
  fst (cn_open toy full_provider small_config 0 c0) = o.
Proof.
  intros h f o c0 Hcase Hnew. destruct (stopped_meets h f o Hcase) as (Hf & Hl & Hrf).
  destruct full_hypotheses as (_ & _ & Hsz & Ht & Hsec & _). destruct full_pinned as (hello & Hpin & Hx).
  destruct (C53_later nat toy full_provider small_config (zeros 300) silent 0 1 toy_ok eq_refl Hsz (Forall_nil _) (Forall_nil _) Ht) as (hello' & Hpin' & H).
  assert (hello' = hello).
  { destruct (Hpin _ _ _ full_start_new) as [e1 E1]. destruct (Hpin' _ _ _ full_start_new) as [e2 E2]. rewrite E1 in E2. symmetry. exact (goes_out_inj _ _ _ _ E2). }
  subst hello'.
  assert (Hstr : stream [RxData (started (h ++ f))] = started (h ++ f)) by (unfold stream; cbn [map concat]; apply app_nil_r).
  assert (Hch : chunked [RxData (started (h ++ f))]).
  { constructor; [|constructor]. eexists. split; [reflexivity|]. unfold started. intros E. apply app_eq_nil in E as [E _]. vm_compute in E. discriminate E. }
  destruct (H (zeros 400) [RxData (started (h ++ f))] c0 full_exchange (firstn 2 (x_msgs full_exchange)) 1%N 1 (h ++ f) Hnew Hch Hx) as [_ G].
  { rewrite Hstr. exact (full_begun (h ++ f)). }
  { exact Hsec. }
  destruct (G h f [] ltac:(now rewrite app_nil_r) Hf Hl) as [K _]. destruct (K o Hrf) as (c & -> & _). reflexivity.
Qed.

(** An alert as the first record. *)
Example first_meets : first_fails toy (p_secret full_provider) [x15; x03; x03; x00; x02] [x02; x28] (HandshakeAborted AL_Fatal AD_HandshakeFailure) /\
  framed [x15; x03; x03; x00; x02] [x02; x28] /\ unreadable 400 [x16; x03; x03; x01; xff; x00] InsufficientSpace.
Proof.
  split; [apply ff_alert; [reflexivity|exists []; reflexivity]|]. split; [split; reflexivity|].
  apply (un_long 400 [x16; x03; x03; x01; xff] 511 [x00]); [reflexivity|cbn; auto 10|reflexivity|].
  apply Nat.ltb_lt. vm_compute. reflexivity.
Qed.

Print Assumptions C53_first.
Print Assumptions C53_later.
Print Assumptions C50_empty_panics.
Print Assumptions C53_no_other.
