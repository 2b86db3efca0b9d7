(** * C63: the buffer sizes that the documentation asks for *)
From Coq Require Import String List NArith Arith Bool Lia ZArith.
From Coq.Strings Require Import Byte.
From Coq Require Import ZifyBool ZifyNat ZifyN.
From Verif Require Import Base ParseBuffer Buffer Codes Extensions Crypto KeySchedule Config Handshake Record WriteBuffer
  Transport RecordReader ReadBuffer Connection Api BaseProofs ParseProofs SpecWire SpecCodes SpecMessages WireProofs SpecKeys
  SpecRecord RecordProofs SpecRead ReadProofs RecvProofs SpecSend SendProofs SpecHello PropHello HsProofs ConnProofs SpecHandshake SpecOpen ServeProofs
  PropSend PropWrite PropRead PropRecv LocalProofs AcceptProofs PropKeys FlightProofs SpecComplete MessageProofs OpenProofs CompleteProofs PropComplete
  SpecFailure SpecReceiver ReceiverProofs ListenProofs PropReceiver SpecSizes Toy ToyRun ToyServer.
Import ListNotations.
Local Open Scope list_scope.

(** ** The read buffer *)

Lemma legal_served C room r : crypto_ok C -> (documented_size <= N.of_nat room)%N -> legal_record r -> served C room r.
Proof.
  intros HC Hroom. destruct r as [[t c] pad]. unfold legal_record, served, legal_inner, documented_size in *. rewrite (ok_tag_len C HC).
  intros [Ht Hl]. split; [exact Ht|]. lia.
Qed.

Lemma legal_followable C room R x l : crypto_ok C -> (documented_size <= N.of_nat room)%N ->
  legal_flight x l -> followable C R x l -> followable C room x l.
Proof.
  intros HC Hroom [Hs Hl] (A1 & A2 & A3 & A4 & A5 & A6 & A7 & A8 & A9). unfold documented_size, legal_clear in *.
  split; [exact A1|]. split; [exact A2|]. split; [exact A3|]. split; [lia|]. split; [exact A5|]. split; [exact A6|]. split; [exact A7|]. split; [|exact A9].
  rewrite Forall_forall in *. intros q Hq. specialize (Hl q Hq). destruct q as [|ms pad]; cbn [part_fits] in *; [lia|].
  unfold legal_inner in Hl. rewrite (ok_tag_len C HC). lia.
Qed.

(** With the documented 16640 bytes the client reads whatever data a server may send in records of legal size. *)
Theorem C63_read : forall C L c srv ops, crypto_ok C -> established C L c -> steady c ->
  (documented_size <= N.of_nat (room c))%N ->
  incoming c = server_wire C (read_key c) (read_iv c) 0 srv -> Forall legal_record srv -> (N.of_nat (length srv) <= u64_max)%N ->
  Forall (fun o => exists dst, o = OpRead dst /\ dst <> []) ops ->
  length (concat (data_of (map fst srv))) < length ops ->
  read_bytes (fst (run C ops c)) = concat (data_of (map fst srv)).
Proof.
  intros C L c srv ops HC He Hs Hroom Hin Hl Hn Ho Hlen. apply (C14_complete C L c srv ops HC He Hs Hin); auto.
  eapply Forall_impl; [|exact Hl]. intros r. now apply legal_served.
Qed.

(** And no handshake fails for want of room in the read buffer: a flight that some read buffer can take, with records of
    legal size, is taken with the documented size. *)
Theorem C63_open : forall V C (p : provider V) cfg wbuf tx v v0, crypto_ok C -> length (p_random p) = 32 ->
  hello_size cfg (length (c_pub C (p_secret p))) (hash_len C) <= length wbuf ->
  Forall (eq WrOk) (tx_wr tx) -> Forall (eq FlOk) (tx_fl tx) -> told p cfg v v0 ->
  exists hello,
    (forall rbuf rx c0, cn_new C rbuf wbuf rx tx = Ok c0 ->
       exists evs, sent_log (snd (cn_open C p cfg v c0)) = tx_log tx ++ goes_out (SpecHandshake.hello_record hello) ++ evs) /\
    forall R rbuf rx c0 x l rest v1 ms, cn_new C rbuf wbuf rx tx = Ok c0 -> chunked rx ->
      (documented_size <= N.of_nat (length rbuf))%N ->
      stream rx = flight_wire C x l ++ rest -> x_hello x = hello -> followable C R x l -> legal_flight x l ->
      secrets_ok C (option_map fst (cfg_psk cfg)) (p_secret p) x -> finishes C x ->
      (p_has_verifier p = true -> accepts_all p (x_hellos x) (x_msgs x) v0 v1) ->
      signer_fits C p ->
      answer C p (x_client x) (x_hellos x ++ raw (x_msgs x)) (answered x) ms ->
      Forall (fun m => length m + 22 <= length wbuf) ms ->
      exists c, cn_open C p cfg v c0 = (Ok tt, c) /\ incoming c = rest /\ steady c /\ room c = length rbuf.
Proof.
  intros V C p cfg wbuf tx v v0 HC Hr Hs H1 H2 Ht.
  destruct (handshake_succeeds C p cfg wbuf tx v v0 HC Hr Hs (conj H1 H2) Ht) as (hello & Hsent & Hgo). exists hello. split; [exact Hsent|].
  intros R rbuf rx c0 x l rest v1 ms Hnew Hch Hroom Hstr Hh Hfol Hleg Hsec Hfin Hacc Hsf Hans Hlen.
  apply (legal_followable C (length rbuf)) in Hfol; auto.
  destruct (Hgo rbuf rx c0 x rest v1 ms Hnew Hch Hh) as (c & Ho & _ & Hin & Hst & Hrm & _); auto.
  { rewrite Hstr. now apply followable_whole. }
  { now apply signer_signature_fits. }
  exists c. auto.
Qed.

(** A header that announces more than the buffer takes. *)
Lemma hears_long C key iv room n h k w v n' w' : hears C key iv room n (h ++ w) v n' w' -> length h = 5 -> type_known h ->
  be_val (skipn 3 h) = N.of_nat k -> room < k -> v = V_error InsufficientSpace.
Proof.
  intros H Hh Hty Hbe Hk. remember (h ++ w) as b eqn:Eb.
  assert (Hr : forall h' f rest, readable room (h', f) -> h' ++ f ++ rest = h ++ w -> False).
  { intros h' f rest ([Hl Hf] & _ & Hrm) E. cbn [fst snd] in *. destruct (head_unique _ _ _ _ Hl Hh E) as [-> _]. lia. }
  destruct H as [n h' f rest v n1 v' n' w' Hb _ _ _|n h' f rest v n1 Hb _ _|n b Hb|n h' b Hl Ht|n h' k' b Hl Ht Hv Hr'|n h' k' b Hl Ht Hv Hle Hc].
  - destruct (Hr _ _ _ Hb Eb).
  - destruct (Hr _ _ _ Hb Eb).
  - subst b. rewrite app_length in Hb. lia.
  - destruct (head_unique _ _ _ _ Hl Hh Eb) as [-> _]. contradiction.
  - reflexivity.
  - destruct (head_unique _ _ _ _ Hl Hh Eb) as [-> _]. lia.
Qed.

(** Which room is needed, to the byte: a record of data is read exactly when its fragment fits, and [InsufficientSpace]
    is what one gets otherwise.  (2^14 + 1 + 16 bytes, less than documented, are enough for every legal record.) *)
Theorem C63_exact : forall C L c d pad rest dst r c', crypto_ok C -> established C L c -> steady c ->
  d <> [] -> dst <> [] -> (N.of_nat (fragment_size C d pad) < 65536)%N ->
  incoming c = rfc_record C (read_key c) (read_iv c) 0 ty_data d pad ++ rest ->
  step C (OpRead dst) c = (r, c') ->
  (fragment_size C d pad <= room c -> let n := Nat.min (length dst) (length d) in r = Ok (VRead n (firstn n d ++ skipn n dst))) /\
  (room c < fragment_size C d pad -> r = Err InsufficientSpace).
Proof.
  intros C L c d pad rest dst r c' HC He Hst Hd Hdst Hsz Hin H. unfold fragment_size in *. rewrite (ok_tag_len C HC) in *.
  destruct (C54_start C L c HC He Hst) as [Hl Hrc]. rewrite Hin in Hrc.
  destruct (rfc_record_parts C (read_key c) (read_iv c) 0 ty_data d pad HC) as (f & Ef & Hf & Ho). rewrite Ef in Hrc. set (h := rfc_header _) in *.
  assert (Hh5 : length h = 5) by reflexivity.
  assert (Hty : type_known h) by (cbn; tauto).
  assert (Hbe : be_val (skipn 3 h) = N.of_nat (length d + 1 + pad + 16)).
  { unfold h, rfc_header. change (skipn 3 _) with (uint 2 (N.of_nat (length d + 1 + pad + 16))). apply be_val_uint_small. change (256 ^ N.of_nat 2)%N with 65536%N. exact Hsz. }
  assert (Hw : waits (OpRead dst) = true) by (destruct dst; [contradiction|reflexivity]).
  assert (Hrcv : receive C (read_key c) (read_iv c) (room c) (mk_receiver true [] 0 ((h ++ f) ++ rest)) (OpRead dst) r (receiver_of c') \/
    exists x, r = Panic x /\ forall s, receive C (read_key c) (read_iv c) (room c) (mk_receiver true [] 0 ((h ++ f) ++ rest)) (OpRead dst) r s).
  { destruct (machine_step C _ c (OpRead dst) r c' HC (listening_mirrors C L c HC Hl) eq_refl H) as [(x & Ex & Hx)|(Hx & _)]; rewrite Hrc in Hx; eauto. }
  rewrite <- app_assoc in Hrcv.
  assert (Hfr : framed h f) by (split; [exact Hh5|now rewrite Hf]).
  split; intros Hroom.
  - assert (Hv : hears C (read_key c) (read_iv c) (room c) 0 (h ++ f ++ rest) (V_data d) (0 + 1) rest).
    { apply he_record.
      - split; [exact Hfr|]. split; [exact Hty|]. cbn [snd]. lia.
      - eapply ri_taken; [reflexivity|exact Ho|apply unpad_inner; discriminate|apply ci_data|reflexivity|reflexivity].
      - destruct d; [contradiction|reflexivity]. }
    assert (G : exists s, receive C (read_key c) (read_iv c) (room c) (mk_receiver true [] 0 (h ++ f ++ rest)) (OpRead dst) r s) by (exists (receiver_of c'); destruct Hrcv as [K0|(x & _ & K0)]; [exact K0|apply K0]).
    destruct G as [s G]. inversion G; subst; cbn [q_open q_data] in *;
      try match goal with K0 : hears _ _ _ _ _ _ ?v ?n ?w |- _ =>
        lazymatch v with V_data d => fail | _ => destruct (hears_unique _ _ _ _ _ _ _ _ _ Hv v n w K0) as (K & _ & _);
          try discriminate K end end.
    + match goal with K : _ \/ _ |- _ => destruct K as [[_ K]|K]; [contradiction|congruence] end.
    + discriminate.
    + injection K as <-. match goal with K : take _ _ _ _ _ |- _ => inversion K; subst end; try contradiction; try (exfalso; congruence).
      * reflexivity.
      * exfalso. match goal with K : succeeds ?r, K' : forall v, ?r <> Ok v |- _ => destruct K as [v0 K]; destruct (K' v0 K) end.
      * discriminate.
  - assert (G : exists s, receive C (read_key c) (read_iv c) (room c) (mk_receiver true [] 0 (h ++ f ++ rest)) (OpRead dst) r s) by (exists (receiver_of c'); destruct Hrcv as [K0|(x & _ & K0)]; [exact K0|apply K0]).
    destruct G as [s G]. inversion G; subst; cbn [q_open q_data] in *;
      try match goal with K0 : hears _ _ _ _ _ _ ?v ?n ?w |- _ =>
        pose proof (hears_long C (read_key c) (read_iv c) (room c) 0 h _ (f ++ rest) v n w K0 Hh5 Hty Hbe Hroom) as K; try discriminate K end.
    + match goal with K : _ \/ _ |- _ => destruct K as [[_ K]|K]; [contradiction|congruence] end.
    + discriminate.
    + injection K as ->. reflexivity.
Qed.

(** ** The write buffer *)

Lemma hello_too_long V C (p : provider V) cfg wbuf tx : crypto_ok C -> length (p_random p) = 32 ->
  length wbuf < hello_size cfg (length (c_pub C (p_secret p))) (hash_len C) ->
  forall rbuf rx c0 (h : @hs_data V), cn_new C rbuf wbuf rx tx = Ok c0 ->
  exists e c1, process C p cfg St_ClientHello (c0, h) = (Err e, (c1, h)) /\ (e = InsufficientSpace \/ e = EncodeError) /\ wh_tx (cn_wh c1) = tx.
Proof.
  intros HC Hrnd Hsz rbuf rx c0 h Hnew. set (psk := option_map fst (cfg_psk cfg)). set (ch := mk_ch cfg (p_random p) (p_secret p)).
  destruct (C08_key_schedule C psk [] [] [] HC) as (k1 & Hk1 & _ & _ & Htr1 & _).
  destruct (ie_binder C _ _ _ Hk1) as [[bk Hbk] Hst].
  destruct (cn_new_idle C rbuf wbuf rx tx c0 Hnew) as (Hid & _ & _ & Htx0 & _ & Hrd0 & Hks0 & _).
  set (c1 := cn_with_keysched c0 k1).
  destruct (PropHello.hello_record C ch (ks_w k1) (r_transcript (ks_r k1)) bk wbuf HC ltac:(destruct (ok_sizes C HC); lia) (fun _ => Hbk)) as (hello & binders & _ & Hmsg & Hroom & _ & Hno).
  destruct Hno as (e & w' & Hw & He).
  { rewrite Hmsg, (hello_image_length C ch _ Hrnd Hroom). exact Hsz. }
  assert (Ewb : wh_wb (cn_wh c0) = mk_wbuf wbuf 0 None).
  { unfold cn_new, wb_new in Hnew. destruct (TLS_RECORD_OVERHEAD <? length wbuf); [|discriminate]. cbn [obind] in Hnew. injection Hnew as <-. reflexivity. }
  exists e. eexists. split; [|split; [exact He|]].
  - cbn [process]. unfold do_client_hello. unfold bind at 1, bind at 1, on_conn at 1, on_ks at 1. cbn [fst snd]. rewrite Hks0. fold psk. rewrite Hk1. fold c1 ch.
    unfold bind at 1, on_conn at 1. cbn [fst snd]. unfold cn_write_record. unfold bind at 1, get at 1. unfold bind at 1, on_wh at 1, on_wb at 1.
    unfold c1 at 1 2 3. cbn [cn_with_keysched cn_wh wh_with_ks wh_ks wh_wb cn_rd rd_with_ks rd_ks]. rewrite Ewb, Hw. reflexivity.
  - cbn. exact Htx0.
Qed.

(** Only the write buffer counts for the ClientHello, whatever the size of the read buffer: it goes out if it fits there, and
    [open] fails without having sent anything if it does not. *)
Theorem C63_hello : forall V C (p : provider V) cfg wbuf tx v v0, crypto_ok C -> length (p_random p) = 32 ->
  Forall (eq WrOk) (tx_wr tx) -> Forall (eq FlOk) (tx_fl tx) -> told p cfg v v0 ->
  exists hello, length (goes_out (SpecHandshake.hello_record hello)) = 2 /\
  forall rbuf rx c0 o c, cn_new C rbuf wbuf rx tx = Ok c0 -> cn_open C p cfg v c0 = (o, c) ->
    (hello_size cfg (length (c_pub C (p_secret p))) (hash_len C) <= length wbuf ->
       exists evs, sent_log c = tx_log tx ++ goes_out (SpecHandshake.hello_record hello) ++ evs) /\
    (length wbuf < hello_size cfg (length (c_pub C (p_secret p))) (hash_len C) ->
       (o = Err InsufficientSpace \/ o = Err EncodeError) /\ sent_log c = tx_log tx).
Proof.
  intros V C p cfg wbuf tx v v0 HC Hr H1 H2 Ht.
  destruct (le_lt_dec (hello_size cfg (length (c_pub C (p_secret p))) (hash_len C)) (length wbuf)) as [Hs|Hs].
  - destruct (handshake_succeeds C p cfg wbuf tx v v0 HC Hr Hs (conj H1 H2) Ht) as (hello & Hsent & _). exists hello.
    split; [reflexivity|]. intros rbuf rx c0 o c Hnew Ho. split; [|lia]. intros _.
    destruct (Hsent rbuf rx c0 Hnew) as [evs E]. rewrite Ho in E. eauto.
  - exists []. split; [reflexivity|]. intros rbuf rx c0 o c Hnew Ho. split; [lia|]. intros _.
    assert (Hhost : host_step p cfg v = (Ok tt, v0)).
    { unfold host_step, told in *. destruct (cfg_server_name cfg), (p_has_verifier p); congruence. }
    destruct (hello_too_long V C p cfg wbuf tx HC Hr Hs rbuf rx c0 (hs_new v0) Hnew) as (e & c1 & Hp & He & Htx).
    unfold cn_open in Ho. fold (host_step p cfg v) in Ho. rewrite Hhost in Ho. unfold bind at 1, lift at 1 in Ho.
    change (8 + rx_size (rd_rx (cn_rd c0))) with (S (7 + rx_size (rd_rx (cn_rd c0)))) in Ho.
    rewrite TermProofs.open_loop_round in Ho by discriminate. unfold bind at 1 in Ho. rewrite Hp in Ho.
    apply pair_equal_spec in Ho as [<- <-]. split; [destruct He as [->| ->]; auto|]. unfold sent_log. now rewrite Htx.
Qed.

(** So it is not "the largest of the two buffers" that counts. *)
Theorem C63_largest_refuted :
  ~ (forall V C (p : provider V) cfg rbuf wbuf rx tx v v0 c0, crypto_ok C -> length (p_random p) = 32 ->
       Forall (eq WrOk) (tx_wr tx) -> Forall (eq FlOk) (tx_fl tx) -> told p cfg v v0 -> cn_new C rbuf wbuf rx tx = Ok c0 ->
       hello_size cfg (length (c_pub C (p_secret p))) (hash_len C) <= Nat.max (length rbuf) (length wbuf) ->
       sent_log (snd (cn_open C p cfg v c0)) <> tx_log tx).
Proof.
  intros H. set (cfg := mk_config (Some (repeat x61 100)) None None [SS_EcdsaSecp256r1Sha256] [NG_Secp256r1] None).
  assert (Hsz : 129 < hello_size cfg (length (c_pub toy (p_secret plain_provider))) (hash_len toy) <= 400) by (vm_compute; lia).
  destruct (cn_new toy (zeros 400) (zeros 129) [] silent) as [c0| | | |] eqn:Hnew; try discriminate Hnew.
  specialize (H unit toy plain_provider cfg (zeros 400) (zeros 129) [] silent tt tt c0 toy_ok eq_refl (Forall_nil _) (Forall_nil _) eq_refl Hnew).
  rewrite !zeros_length in H. apply H; [lia|].
  destruct (C63_hello unit toy plain_provider cfg (zeros 129) silent tt tt toy_ok eq_refl (Forall_nil _) (Forall_nil _) eq_refl) as (hello & _ & G).
  destruct (cn_open toy plain_provider cfg tt c0) as [o c] eqn:Eo. destruct (G _ _ _ _ _ Hnew Eo) as [_ K]. rewrite zeros_length in K. apply K. lia.
Qed.

(** A write buffer of [TLS_RECORD_OVERHEAD] (128) bytes is not large enough: [new] panics (in a debug build) exactly for
    128 bytes or less. *)
Theorem C63_overhead_refuted : forall C rbuf wbuf rx tx,
  (cn_new C rbuf wbuf rx tx = Panic PAssert <-> length wbuf <= 128) /\
  ((exists c, cn_new C rbuf wbuf rx tx = Ok c) <-> 128 < length wbuf).
Proof.
  intros C rbuf wbuf rx tx. unfold cn_new, wb_new. destruct (TLS_RECORD_OVERHEAD <? length wbuf) eqn:E; cbn [obind].
  - apply Nat.ltb_lt in E. change TLS_RECORD_OVERHEAD with 128 in E. split; split; intros H; try discriminate; try lia; eauto.
  - apply Nat.ltb_ge in E. change TLS_RECORD_OVERHEAD with 128 in E. split; split; intros H; try lia; [reflexivity|]. destruct H as [c H]. discriminate.
Qed.

(** ** Cases *)

(** A read buffer of 400 bytes: a record of 383 bytes of data is read, one of 384 is refused. *)
Lemma trickle_stream w : stream (trickle w) = w.
Proof. unfold trickle, stream. induction w as [|x w IH]; [reflexivity|]. cbn [map concat app]. now rewrite IH. Qed.

Definition data_record (n : nat) : bytes := rfc_record toy (read_key (conn_in [])) (read_iv (conn_in [])) 0 ty_data (repeat x41 n) 0.
Example C63_exact_case : room (conn_in (data_record 383)) = 400 /\
  fst (step toy (OpRead [x00; x00]) (conn_in (data_record 383))) = Ok (VRead 2 [x41; x41]) /\
  fst (step toy (OpRead [x00; x00]) (conn_in (data_record 384))) = Err InsufficientSpace.
Proof.
  split; [reflexivity|].
  assert (G : forall n, 0 < n < 500 -> let r := fst (step toy (OpRead [x00; x00]) (conn_in (data_record n))) in
    (n + 17 <= 400 -> r = Ok (VRead (Nat.min 2 n) (firstn (Nat.min 2 n) (repeat x41 n) ++ skipn (Nat.min 2 n) [x00; x00]))) /\ (400 < n + 17 -> r = Err InsufficientSpace)).
  { intros n Hn r. destruct (step toy (OpRead [x00; x00]) (conn_in (data_record n))) as [r' c'] eqn:E. unfold r. cbn [fst].
    assert (Hrm : room (conn_in (data_record n)) = 400) by reflexivity.
    pose proof (C63_exact toy 300 (conn_in (data_record n)) (repeat x41 n) 0 [] [x00; x00] r' c' toy_ok (conn_in_established _) (trickle_chunked _)) as H.
    unfold fragment_size in H. rewrite repeat_length, Hrm in H. change (tag_len toy) with 16 in H.
    destruct H as [H1 H2]; [destruct n; [lia|discriminate]|discriminate|lia| |exact E|].
    { unfold incoming. rewrite conn_in_rx. rewrite trickle_stream, app_nil_r. reflexivity. }
    split; intros K; [apply H1|apply H2]; lia. }
  split; [destruct (G 383 ltac:(lia)) as [K _]; rewrite K by lia; reflexivity|destruct (G 384 ltac:(lia)) as [_ K]; apply K; lia].
Qed.

(** The handshake of ToyServer.v with a read buffer of the documented size; the connection then reads records of 2^14 bytes. *)
Example C63_case : exists c0 c, cn_new toy (zeros (N.to_nat documented_size)) (zeros 300) full_rx silent = Ok c0 /\
  cn_open toy full_provider small_config 0 c0 = (Ok tt, c) /\ established toy 300 c /\ room c = N.to_nat documented_size /\
  legal_record (ty_data, repeat x41 (N.to_nat 16384), 0).
Proof.
  destruct full_hypotheses as ((evs & Hs) & Hstr & Hsz & Ht & Hsec & Hfin & Hacc & Hsf & Hans & Hlen & _).
  destruct (C63_open nat toy full_provider small_config (zeros 300) silent 0 1 toy_ok eq_refl) as (hello & Hpin & Hgo); auto.
  { constructor. } { constructor. }
  assert (Eh : x_hello full_exchange = hello).
  { destruct (Hpin _ _ _ full_start_new) as [evs' E]. rewrite E in Hs. exact (goes_out_inj _ _ _ _ (eq_sym Hs)). }
  destruct (proj2 (proj2 (C63_overhead_refuted toy (zeros (N.to_nat documented_size)) (zeros 300) full_rx silent))) as [c0 Hnew].
  { rewrite zeros_length. lia. }
  destruct (Hgo 400 (zeros (N.to_nat documented_size)) full_rx c0 full_exchange full_parts [x17; x03] 3 full_answer Hnew) as (c & Ho & _ & _ & Hrm); auto.
  - unfold chunked, full_rx. constructor; [|constructor; [|constructor; [|constructor]]]; eexists; (split; [reflexivity|discriminate]).
  - rewrite zeros_length, N2Nat.id. reflexivity.
  - exact full_followable.
  - split; [vm_compute; discriminate|]. repeat (constructor; [first [exact I|vm_compute; discriminate]|]). constructor.
  - exists c0, c. split; [exact Hnew|]. split; [exact Ho|]. split.
    { exists nat, full_provider, small_config, 0, (zeros (N.to_nat documented_size)), (zeros 300), full_rx, silent, c0. split; [reflexivity|]. split; [exact Hnew|]. split; [apply zeros_length|exact Ho]. }
    split; [rewrite Hrm; apply zeros_length|]. split; [now left|]. unfold legal_inner. rewrite repeat_length. lia.
Qed.

(** The hypotheses of [C63_hello] for a write buffer that is too small and one that is not. *)
Example C63_hello_case : let cfg := mk_config (Some (repeat x61 100)) None None [SS_EcdsaSecp256r1Sha256] [NG_Secp256r1] None in
  hello_size cfg (length (c_pub toy (p_secret plain_provider))) (hash_len toy) = 233 /\
  told plain_provider cfg tt tt /\ length (p_random plain_provider) = 32 /\
  exists c0, cn_new toy (zeros 400) (zeros 232) [] silent = Ok c0.
Proof. cbv zeta. split; [reflexivity|]. split; [reflexivity|]. split; [reflexivity|]. eexists. reflexivity. Qed.

Print Assumptions C63_read.
Print Assumptions C63_open.
Print Assumptions C63_exact.
Print Assumptions C63_hello.
Print Assumptions C63_largest_refuted.
Print Assumptions C63_overhead_refuted.
