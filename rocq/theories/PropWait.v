(** * C77: no call waits for more than it needs *)
From Coq Require Import String List NArith Arith Bool Lia ZArith.
From Coq.Strings Require Import Byte.
From Coq Require Import ZifyBool ZifyNat ZifyN.
From Verif Require Import Base ParseBuffer Buffer Codes Extensions Crypto KeySchedule Config Handshake Record WriteBuffer
  Transport RecordReader ReadBuffer Connection Api BaseProofs SpecWire WireProofs SpecCodes SpecMessages SpecKeys KeyProofs SpecRecord RecordProofs SpecRead
  SpecSend SendProofs SpecHello PropHello HsProofs ConnProofs FrameProofs DecryptProofs FlagProofs ReadProofs RecvProofs ServeProofs SpecHandshake SpecComplete CompleteProofs
  SpecFailure SpecReceiver ListenProofs ReceiverProofs PropReceiver PropComplete SpecOpen TermProofs SpecChunk ChunkProofs SpecWait WaitProofs Toy ToyRun ToyServer PropRead PropRecv PropStrict PropChunk.
Import ListNotations.
Local Open Scope list_scope.

(** ** Every call *)

(** Every call but [open], in every state of a connection: if with what the transport has brought it does not meet the end, then
    it is the same whatever comes later, and what comes later is left on the transport. *)
Theorem C77_call : forall C o c r c' more, step C o c = (r, c') -> r <> Err IoError -> r <> Diverge ->
  step C o (later more c) = (r, later more c').
Proof.
  intros C o c r c' more E H1 H2. destruct (par_step more C o c (later more c) eq_refl) as [[H|H]|[H R]]; rewrite E in *; cbn [fst snd] in *; try contradiction.
  destruct (step C o (later more c)) as [r2 c2]. cbn [fst snd] in *. unfold gc in R. now subst.
Qed.

(** The same for [open]. *)
Theorem C77_open : forall V C (p : provider V) cfg v c r c' more, cn_open C p cfg v c = (r, c') -> r <> Err IoError -> r <> Diverge ->
  cn_open C p cfg v (later more c) = (r, later more c').
Proof.
  intros V C p cfg v c r c' more E H1 H2. destruct (par_open more C p cfg v c (later more c) eq_refl) as [[H|H]|[H R]]; rewrite E in *; cbn [fst snd] in *; try contradiction.
  destruct (cn_open C p cfg v (later more c)) as [r2 c2]. cbn [fst snd] in *. unfold gc in R. now subst.
Qed.

(** Whole sessions: as long as no call meets the end, all calls return what they return whatever comes later. *)
Theorem C77_session : forall V C (l : list (call V)) rbuf wbuf rx more tx c0 as_ c, Forall call_returns l ->
  cn_new C rbuf wbuf rx tx = Ok c0 -> session C l c0 = (as_, c) -> Forall (fun a => ~ starved a) as_ ->
  exists c0', cn_new C rbuf wbuf (rx ++ more) tx = Ok c0' /\ session C l c0' = (as_, later more c).
Proof.
  intros V C l rbuf wbuf rx more tx c0 as_ c Hl Hn Hs Hf. exists (later more c0).
  assert (Hw : rd_wf (cn_rd c0)).
  { destruct (cn_new_idle C rbuf wbuf rx tx c0 Hn) as (_ & _ & _ & _ & _ & E & _). rewrite E. unfold rd_wf. cbn. lia. }
  split.
  { unfold cn_new in *. destruct (wb_new wbuf) as [w|e|x| |]; try discriminate. cbn [obind] in *. injection Hn as <-. reflexivity. }
  clear Hn. revert c0 as_ c Hs Hf Hw. induction l as [|[p cfg v|o] l IH]; intros c0 as_ c Hs Hf Hw; cbn [session] in *;
    [injection Hs as <- <-; reflexivity|..]; inversion Hl as [|? ? Hp Hl']; subst; specialize (IH Hl').
  - destruct (cn_open C p cfg v c0) as [r c1] eqn:E. pose proof (open_runs C p cfg Hp v c0 Hw) as K. rewrite E in K. destruct K as (K1 & K2 & _).
    assert (Hr : r <> Err IoError). { intros ->. destruct (session C l c1). injection Hs as <- <-. inversion Hf as [|? ? X _]; subst. apply X. now left. }
    rewrite (C77_open _ _ _ _ _ _ _ _ more E Hr) by exact K1.
    destruct r as [[]|e|x| |]; try (injection Hs as <- <-; reflexivity);
      destruct (session C l c1) as [rs c2] eqn:E2; injection Hs as <- <-; inversion Hf as [|? ? _ Hf']; subst; now rewrite (IH c1 rs c2 E2 Hf' K2).
  - destruct (step C o c0) as [r c1] eqn:E. pose proof (step_ends C o c0 Hw) as K. rewrite E in K. destruct K as (K1 & K2).
    assert (Hr : r <> Err IoError). { intros ->. destruct (session C l c1). destruct o; injection Hs as <- <-; inversion Hf as [|? ? X _]; subst; apply X; now right. }
    rewrite (C77_call _ _ _ _ _ more E Hr) by exact K1.
    destruct o; destruct r as [a|e|x| |]; try (injection Hs as <- <-; reflexivity);
      destruct (session C l c1) as [rs c2] eqn:E2; injection Hs as <- <-; inversion Hf as [|? ? _ Hf']; subst; now rewrite (IH c1 rs c2 E2 Hf' K2).
Qed.

(** ** What is enough *)

(** Once the flight of a server that follows RFC 8446 (C44) is there, [open] succeeds: whatever follows it, be it silence. *)
Theorem C77_handshake : forall V C (p : provider V) cfg wbuf tx v v0, crypto_ok C -> length (p_random p) = 32 ->
  hello_size cfg (length (c_pub C (p_secret p))) (hash_len C) <= length wbuf ->
  Forall (eq WrOk) (tx_wr tx) -> Forall (eq FlOk) (tx_fl tx) -> told p cfg v v0 ->
  exists hello,
    (forall rbuf rx c0, cn_new C rbuf wbuf rx tx = Ok c0 ->
       exists evs, sent_log (snd (cn_open C p cfg v c0)) = tx_log tx ++ goes_out (SpecHandshake.hello_record hello) ++ evs) /\
    forall rbuf rx c0 x rest v1 ms more c1, cn_new C rbuf wbuf rx tx = Ok c0 -> chunked rx ->
      x_hello x = hello -> whole_flight C (length rbuf) (stream rx) x rest ->
      secrets_ok C (option_map fst (cfg_psk cfg)) (p_secret p) x -> finishes C x ->
      (p_has_verifier p = true -> accepts_all p (x_hellos x) (x_msgs x) v0 v1) ->
      signer_fits C p ->
      SpecHandshake.answer C p (x_client x) (x_hellos x ++ raw (x_msgs x)) (answered x) ms ->
      Forall (fun m => length m + 22 <= length wbuf) ms ->
      cn_new C rbuf wbuf (rx ++ more) tx = Ok c1 ->
      exists c left, cn_open C p cfg v c1 = (Ok tt, c) /\ rd_rx (cn_rd c) = left ++ more /\ chunked left /\ stream left = rest.
Proof.
  intros V C p cfg wbuf tx v v0 HC Hr Hs Hw Hf Ht. destruct (C44_handshake V C p cfg wbuf tx v v0 HC Hr Hs Hw Hf Ht) as (hello & A & B).
  exists hello. split; [exact A|]. intros rbuf rx c0 x rest v1 ms more c1 Hn Hc Hx Hwf Hsec Hfin Hacc Hsig Hans Hms Hn1.
  destruct (B rbuf rx c0 x rest v1 ms Hn Hc Hx Hwf Hsec Hfin Hacc Hsig Hans Hms) as (c & E & _ & Hi & Hst & _).
  assert (E1 : c1 = later more c0).
  { unfold cn_new in *. destruct (wb_new wbuf) as [w|e|y| |]; try discriminate. cbn [obind] in *. injection Hn as <-. injection Hn1 as <-. reflexivity. }
  exists (later more c), (rd_rx (cn_rd c)). split; [|split; [reflexivity|split; [exact Hst|exact Hi]]].
  rewrite E1. apply C77_open; [exact E|discriminate|discriminate].
Qed.

(** Once a record with data is there - after however many records with none, tickets among them - a reading call returns the data. *)
Theorem C77_data : forall C L c d n' w' more, crypto_ok C -> waiting C L c -> d <> [] ->
  hears C (read_key c) (read_iv c) (room c) (next_seq c) (incoming c) (V_data d) n' w' ->
  exists c' left, step C OpFillBuf (later more c) = (Ok (VBytes d), c') /\ rd_rx (cn_rd c') = left ++ more /\ stream left = w'.
Proof.
  intros C L c d n' w' more HC Hw Hd Hh. destruct (step C OpFillBuf c) as [r c'] eqn:E.
  destruct (waiting_machine C L c OpFillBuf r c' _ n' w' HC Hw eq_refl E Hh) as (A & _). destruct (A d eq_refl eq_refl Hd) as [-> S].
  exists (later more c'), (rd_rx (cn_rd c')). split; [apply C77_call; [exact E|discriminate|discriminate]|]. split; [reflexivity|]. now injection S.
Qed.

(** For one record, as a server that follows the RFC sends it. *)
Theorem C77_record : forall C L c d pad rest more, crypto_ok C -> waiting C L c -> d <> [] ->
  length d + 1 + pad + tag_len C <= room c -> (N.of_nat (length d + 1 + pad + tag_len C) < 65536)%N -> (next_seq c < u64_max)%N ->
  incoming c = rfc_record C (read_key c) (read_iv c) (next_seq c) ty_data d pad ++ rest ->
  exists c' left, step C OpFillBuf (later more c) = (Ok (VBytes d), c') /\ rd_rx (cn_rd c') = left ++ more /\ stream left = rest.
Proof.
  intros C L c d pad rest more HC Hw Hd Hroom Hs Hn Hi.
  destruct (authentic_record C (read_key c) (read_iv c) (room c) (next_seq c) ty_data d pad HC ltac:(discriminate) Hroom Hs) as (h & f & E & Hrd & Hri & _).
  apply (C77_data C L c d (next_seq c + 1) rest more HC Hw Hd). rewrite Hi, E, <- app_assoc.
  apply he_record; [exact Hrd| |now destruct d]. apply Hri; [constructor|reflexivity|exact Hn].
Qed.

(** ** Calls that need nothing from the peer *)

Section Exact.
Context (rx : list rx_event).
Definition moved (a b : conn) : Prop := b = with_rx rx a.

Lemma mv_wh {A} (m : M whalf tls_error A) : ChunkProofs.par moved (on_wh m) (on_wh m).
Proof. intros a b ->. unfold on_wh, with_rx. cbn [cn_rd cn_dec cn_wh cn_shared cn_opened]. destruct (m (cn_wh a)). now split. Qed.
Lemma mv_write_record C r : ChunkProofs.par moved (cn_write_record C r) (cn_write_record C r).
Proof.
  unfold cn_write_record. apply ChunkProofs.par_get. intros a b ->. apply ChunkProofs.par_bind; [apply mv_wh|intros st].
  apply ChunkProofs.par_bind; [|intros _; apply ChunkProofs.par_ret]. intros x y ->. now split.
Qed.
End Exact.

Lemma filled C r d op : d_len d - d_consumed d <> 0 ->
  rh_read_buffered C (r, (d, op)) = (if op then create_read_buffer d (rd_buf r) else Err MissingHandshake, (r, (d, op))).
Proof.
  intros H. unfold rh_read_buffered, bind, get. destruct op; [|reflexivity]. cbn [fill_loop]. unfold bind, get, lift, dec_is_empty, dec_remaining, usize_sub. cbn [fst snd].
  destruct (Nat.leb_spec (d_consumed d) (d_len d)); [|lia]. cbn [obind]. destruct (Nat.eqb_spec (d_len d - d_consumed d) 0); [contradiction|]. reflexivity.
Qed.

(** Writing, flushing, changing the policy, closing; and the receiving calls with decrypted bytes in front of them: they do not
    ask the transport for anything, whatever the state of the connection and whatever is there. *)
Theorem C77_no_wait : forall C o c rx, waits o = false \/ unread c <> [] ->
  step C o (with_rx rx c) = (fst (step C o c), with_rx rx (snd (step C o c))).
Proof.
  intros C o c rx H.
  assert (G : fst (step C o c) = fst (step C o (with_rx rx c)) /\ moved rx (snd (step C o c)) (snd (step C o (with_rx rx c)))).
  2:{ destruct (step C o (with_rx rx c)) as [r2 c2]. cbn [fst snd] in G. destruct G as [-> G]. now rewrite G. }
  assert (F : unread c <> [] -> d_len (cn_dec c) - d_consumed (cn_dec c) <> 0).
  { intros Hu Hz. apply Hu. unfold unread, unread_of. rewrite Hz. reflexivity. }
  assert (W : forall {A} (m : M conn tls_error A), ChunkProofs.par (moved rx) m m -> fst (m c) = fst (m (with_rx rx c)) /\ moved rx (snd (m c)) (snd (m (with_rx rx c)))).
  { intros A m K. now apply K. }
  assert (Rb : forall {A} (m : M rhalf tls_error A) (k : A -> value),
     (exists o1 d1, forall r, rd_buf r = rd_buf (cn_rd c) -> m (r, (cn_dec c, cn_opened c)) = (o1, (r, (d1, cn_opened c)))) ->
     let s := (a <- on_rh m ;; ret (k a)) in fst (s c) = fst (s (with_rx rx c)) /\ moved rx (snd (s c)) (snd (s (with_rx rx c)))).
  { intros A m k (o1 & d1 & E) s. unfold s, bind, on_rh. cbn [with_rx cn_rd cn_dec cn_opened cn_wh cn_shared]. rewrite !E by reflexivity. destruct o1; now split. }
  destruct o as [b| |pol|dst| |n|ops fin|]; cbn [step].
  - apply W. apply ChunkProofs.par_bind; [|intros ?; apply ChunkProofs.par_ret]. unfold cn_write. apply ChunkProofs.par_get. intros x y ->. apply mv_wh.
  - apply W. apply ChunkProofs.par_bind; [|intros ?; apply ChunkProofs.par_ret]. apply mv_wh.
  - apply W. apply ChunkProofs.par_bind; [|intros ?; apply ChunkProofs.par_ret]. apply mv_wh.
  - apply Rb. unfold rh_read. destruct dst as [|x dst].
    + do 2 eexists. intros r _. reflexivity.
    + destruct H as [H|H]; [discriminate|]. specialize (F H). cbn [length Nat.eqb]. unfold bind at 1, lift at 1. unfold rh_drop, rh_set_dec, bind, get, modify, lift.
      destruct (cn_opened c).
      * destruct (create_read_buffer (cn_dec c) (rd_buf (cn_rd c))) as [rb|e|y| |] eqn:E; [destruct (rb_pop_into (x :: dst) rb) as [bnr|e|y| |] eqn:E2|..];
          do 2 eexists; intros r Er; rewrite (filled C r _ _ F), Er, E; rewrite ?E2; cbn [fst snd]; reflexivity.
      * do 2 eexists. intros r Er. rewrite (filled C r _ _ F). reflexivity.
  - apply Rb. destruct H as [H|H]; [discriminate|]. specialize (F H). unfold rh_fill_buf, rh_drop, rh_set_dec, bind, get, modify, lift. destruct (cn_opened c).
    + destruct (create_read_buffer (cn_dec c) (rd_buf (cn_rd c))) as [rb|e|y| |] eqn:E; [destruct (rb_peek_all rb) as [bnr|e|y| |] eqn:E2|..];
        do 2 eexists; intros r Er; rewrite (filled C r _ _ F), Er, E; rewrite ?E2; cbn [fst snd]; reflexivity.
    + do 2 eexists. intros r Er. rewrite (filled C r _ _ F). reflexivity.
  - apply Rb. unfold rh_consume, rh_drop, rh_set_dec, bind, get, modify, lift. cbn [fst snd].
    destruct (create_read_buffer (cn_dec c) (rd_buf (cn_rd c))) as [rb|e|y| |] eqn:E; [destruct (rb_pop n rb) as [bnr|e|y| |] eqn:E2|..];
      do 2 eexists; intros r Er; rewrite Er, E; rewrite ?E2; cbn [fst snd]; reflexivity.
  - apply Rb. destruct H as [H|H]; [discriminate|]. specialize (F H). unfold rh_with_buffer, rh_drop, rh_set_dec, bind, get, modify, lift. destruct (cn_opened c).
    + destruct (create_read_buffer (cn_dec c) (rd_buf (cn_rd c))) as [rb|e|y| |] eqn:E; [destruct (rb_run ops rb) as [bnr|e|y| |] eqn:E2; [destruct fin|..]|..];
        do 2 eexists; intros r Er; rewrite (filled C r _ _ F), Er, E; rewrite ?E2; cbn [fst snd]; reflexivity.
    + do 2 eexists. intros r Er. rewrite (filled C r _ _ F). reflexivity.
  - apply W. apply ChunkProofs.par_bind; [|intros ?; apply ChunkProofs.par_ret]. unfold cn_close. apply ChunkProofs.par_bind; [apply mv_wh|intros []].
    apply ChunkProofs.par_get. intros x y ->. apply ChunkProofs.par_bind; [apply mv_write_record|intros s]. apply ChunkProofs.par_bind; [apply mv_wh|intros []].
    apply ChunkProofs.par_bind; [apply mv_wh|intros []]. apply mv_wh.
Qed.

(** ** While [open] waits, nothing it has sent is still in the transport's buffers *)

Section Ends.
Context {S : Type} (I : S -> Prop).
Definition ends {A} (m : M S tls_error A) : Prop := forall st, I st -> (exists x, fst (m st) = Panic x) \/ I (snd (m st)).
Lemma en_same {A} (m : M S tls_error A) : (forall st, snd (m st) = st) -> ends m.
Proof. intros H st Hi. right. now rewrite H. Qed.
Lemma en_bind {A B} (m : M S tls_error A) (f : A -> M S tls_error B) : ends m -> (forall a, ends (f a)) -> ends (bind m f).
Proof.
  intros Hm Hf st Hi. unfold bind. destruct (Hm st Hi) as [[x E]|H]; destruct (m st) as [[a|e|y| |] st']; cbn [fst snd] in *; try discriminate; eauto. now apply Hf.
Qed.
Lemma en_get {B} (f : S -> M S tls_error B) : (forall s, I s -> ends (f s)) -> ends (bind get f).
Proof. intros H st Hi. exact (H st Hi st Hi). Qed.
Lemma en_lift {A} (o : outcome tls_error A) : ends (lift o). Proof. now apply en_same. Qed.
Lemma en_ret {A} (a : A) : ends (ret a). Proof. now apply en_same. Qed.
Lemma en_fail {A} e : ends (@fail S tls_error A e). Proof. now apply en_same. Qed.
Lemma en_panic {A} e : ends (@panic S tls_error A e). Proof. now apply en_same. Qed.
Lemma en_attempt {A} (m : M S tls_error A) : ends m -> ends (attempt m).
Proof. intros H st Hi. unfold attempt. destruct (H st Hi) as [[x E]|K]; destruct (m st) as [[a|e|y| |] st']; cbn [fst snd] in *; try discriminate; eauto. Qed.
Lemma en_modify f : (forall s, I s -> I (f s)) -> ends (modify f).
Proof. intros H st Hi. right. now apply H. Qed.
End Ends.

(** The transport works; the log has grown, and its last event is a flush. *)
Definition ftx (base : list tx_event) (t : txst) : Prop :=
  Forall (eq WrOk) (tx_wr t) /\ Forall (eq FlOk) (tx_fl t) /\ (tx_log t = base \/ exists l, tx_log t = base ++ l ++ [TxFlush]).
Definition fwh base (w : whalf) : Prop := ftx base (wh_tx w).
Definition fc base (c : conn) : Prop := fwh base (cn_wh c).

Section Flush.
Context (base : list tx_event).

Lemma en_respond b : ends (fwh base) (respond b).
Proof.
  intros [wb k [wr fl log] pol] (H1 & H2 & H3). cbn [wh_tx tx_wr tx_fl tx_log] in *.
  assert (L : exists l, (log ++ [TxWrite b (length b)]) ++ [TxFlush] = base ++ l ++ [TxFlush]).
  { destruct H3 as [-> | [l ->]]; [exists [TxWrite b (length b)]; now rewrite <- app_assoc|exists (l ++ [TxFlush] ++ [TxWrite b (length b)]); now rewrite <- !app_assoc]. }
  assert (I : (exists x, increment_counter (w_state k) = Panic x) \/ exists k1, increment_counter (w_state k) = Ok k1).
  { unfold increment_counter. destruct (N.ltb _ _); eauto. }
  destruct wr as [|a wr]; [|inversion H1 as [|? ? <- Hwr]; subst]; (destruct fl as [|d fl]; [|inversion H2 as [|? ? <- Hfl]; subst]);
    (destruct I as [[x I]|[k1 I]]; [left; exists x|right]; unfold respond, wh_increment, on_tx, tx_write_all, tx_flush, bind, get, lift, put;
     cbn [wh_wb wh_ks wh_tx wh_policy tx_wr tx_fl tx_log omap_err]; rewrite I; cbn [wh_wb wh_ks wh_tx wh_policy tx_wr tx_fl tx_log omap_err fst snd]; [reflexivity|]);
    (split; [|split; [|right; exact L]]); auto.
Qed.

Lemma en_wh {A} (m : M whalf tls_error A) : ends (fwh base) m -> ends (fc base) (on_wh m).
Proof. intros H c Hc. destruct (H _ Hc) as [[x E]|K]; unfold on_wh; destruct (m (cn_wh c)); cbn [fst snd] in *; eauto. Qed.
Lemma en_rd {A} (m : M rdst tls_error A) : ends (fc base) (on_rd m).
Proof. intros c Hc. right. unfold on_rd. destruct (m (cn_rd c)). exact Hc. Qed.
Lemma en_ks f : ends (fc base) (on_ks f).
Proof. intros c Hc. right. unfold on_ks. destruct (f (cn_keysched c)); exact Hc. Qed.
Lemma en_wb {A} (m : M wbuf tls_error A) : ends (fwh base) (on_wb m).
Proof. intros w Hw. right. unfold on_wb. destruct (m (wh_wb w)). exact Hw. Qed.
Lemma en_write_record C r : ends (fc base) (cn_write_record C r).
Proof. unfold cn_write_record. apply en_get. intros c _. apply en_bind; [apply en_wh, en_wb|intros st]. apply en_bind; [apply en_rd|intros _; apply en_ret]. Qed.

Section Hs.
Context {V : Type} (C : crypto) (p : provider V) (cfg : tls_config).
Definition fh (st : conn * @hs_data V) : Prop := fc base (fst st).
Lemma en_conn {A} (m : M conn tls_error A) : ends (fc base) m -> ends fh (on_conn m).
Proof. intros H [c h] Hc. destruct (H c Hc) as [[x E]|K]; unfold on_conn; cbn [fst snd]; destruct (m c); cbn [fst snd] in *; eauto. Qed.
Lemma en_mod f : ends fh (mod_hs f).
Proof. apply en_modify. intros [c h] H. exact H. Qed.
Lemma en_resp b : ends fh (on_conn (on_wh (respond b))).
Proof. apply en_conn, en_wh, en_respond. Qed.
Lemma en_rec r : ends fh (on_conn (cn_write_record C r)).
Proof. apply en_conn, en_write_record. Qed.
Lemma en_hpe m : ends fh m -> ends fh (handle_processing_error C m).
Proof.
  intros H. unfold handle_processing_error. apply en_bind; [now apply en_attempt|intros [s|e]]; [apply en_ret|]. destruct e; try apply en_fail.
  apply en_bind; [apply en_rec|intros tx]. apply en_bind; [apply en_resp|intros _; apply en_fail].
Qed.
Lemma en_process s : ends fh (process C p cfg s).
Proof.
  destruct s; cbn [process].
  - apply en_bind; [|intros tx; apply en_bind; [apply en_resp|intros _; apply en_ret]].
    unfold do_client_hello. apply en_bind; [apply en_conn, en_ks|intros _]. apply en_bind; [apply en_rec|intros tx]. apply en_bind; [apply en_mod|intros _; apply en_ret].
  - apply en_bind; [apply en_conn, en_rd|intros rec]. apply en_hpe. destruct rec as [[e| | |ce|ctx|v|f]| |l d|hd off data]; cbn [process_server_hello]; try apply en_fail.
    apply en_get. intros st _. apply en_bind; [apply en_mod|intros _]. apply en_bind; [apply en_lift|intros secret]. apply en_bind; [apply en_lift|intros shared].
    apply en_bind; [apply en_conn, en_ks|intros _; apply en_ret].
  - apply en_bind; [apply en_conn, en_rd|intros rec]. apply en_hpe. intros [c h] Hc. right. unfold process_server_verify.
    destruct (decrypt_record C (server_verify_cb C p) rec (cn_rd c, (St_ServerVerify, h))) as [o [r [s k]]]. exact Hc.
  - apply en_bind; [|intros nt; apply en_bind; [apply en_resp|intros _; apply en_ret]].
    unfold do_client_cert. apply en_get. intros st _. apply en_bind; [apply en_mod|intros _]. apply en_bind; [apply en_lift|intros ctx].
    destruct (p_client_cert p); (apply en_bind; [apply en_rec|intros tx; apply en_ret]).
  - apply en_bind; [|intros rt; apply en_bind; [apply en_resp|intros _; destruct (fst rt); [apply en_ret|apply en_fail]]].
    unfold do_client_cert_verify. apply en_get. intros st _.
    destruct (p_signer p) as [[sign scheme]|e|x| |]; [|apply en_bind; [apply en_rec|intros ?; apply en_ret]|apply en_panic|apply en_lift|apply en_lift].
    apply en_bind; [apply en_lift|intros msg]. destruct (sign msg); [|apply en_panic]. destruct (_ <? _); [apply en_panic|]. apply en_bind; [apply en_rec|intros ?; apply en_ret].
  - apply en_bind; [|intros tx; apply en_bind; [apply en_resp|intros _]].
    + unfold do_client_finished. apply en_get. intros st _. apply en_bind; [apply en_lift|intros v]. apply en_rec.
    + unfold client_finished_finalize. apply en_get. intros st _. apply en_bind; [apply en_mod|intros _]. apply en_bind; [apply en_lift|intros tr].
      apply en_bind; [apply en_conn, en_rd|intros _]. apply en_bind; [apply en_conn, en_ks|intros _; apply en_ret].
  - apply en_ret.
Qed.
Lemma en_open_loop : forall f s, ends fh (open_loop C p cfg f s).
Proof.
  induction f as [|f IH]; intros s; destruct s; cbn [open_loop]; try apply en_ret; try apply en_lift; (apply en_bind; [apply en_process|intros s'; apply IH]).
Qed.
Lemma en_open v : ends (fc base) (cn_open C p cfg v).
Proof.
  intros c Hc. unfold cn_open.
  destruct (match p_has_verifier p, cfg_server_name cfg with true, Some n => p_set_hostname p n v | _, _ => (Ok tt, v) end) as [o0 v'].
  assert (K : ends fh (lift o0 ;;; open_loop C p cfg (8 + rx_size (rd_rx (cn_rd c))) St_ClientHello)) by (apply en_bind; [apply en_lift|intros _; apply en_open_loop]).
  destruct (K (c, hs_new v') Hc) as [[x E]|E]; destruct ((lift o0 ;;; open_loop C p cfg (8 + rx_size (rd_rx (cn_rd c))) St_ClientHello) (c, hs_new v')) as [o [c' h']];
    cbn [fst snd] in E; [subst o; left; now exists x|right; destruct o; exact E].
Qed.
End Hs.
End Flush.

(** However [open] ends - because the server was silent, or was heard out, or for an error - short of a panic: if the transport
    takes what it is given, everything [open] gave to it has been flushed. *)
Theorem C77_flushed : forall V C (p : provider V) cfg v c r c', transport_succeeds c -> cn_open C p cfg v c = (r, c') ->
  (forall x, r <> Panic x) -> exists new, sent_log c' = sent_log c ++ new /\ all_flushed new.
Proof.
  intros V C p cfg v c r c' [H1 H2] E Hr. assert (Hc : fc (sent_log c) c) by (split; [exact H1|split; [exact H2|now left]]).
  destruct (en_open (sent_log c) C p cfg v c Hc) as [[x Ex]|(_ & _ & [El|[l El]])]; rewrite E in *; cbn [fst snd] in *; [now destruct (Hr x)|..].
  - exists []. rewrite app_nil_r. split; [exact El|]. intros l1 b n l2 Hl. now destruct l1.
  - exists (l ++ [TxFlush]). split; [exact El|]. intros l1 b n l2 Hl.
    destruct l2 as [|e l2] using rev_ind; [apply app_inj_tail in Hl as [_ Hl]; discriminate|].
    rewrite app_comm_cons, app_assoc in Hl. apply app_inj_tail in Hl as [_ <-]. apply in_or_app. right. now left.
Qed.

(** ** Concrete cases *)

(** A whole session - [open], reads, writes, a forged record, a close - of which no call meets the end: whatever comes later. *)
Example C77_case : Forall call_returns cut_calls /\ Forall (fun a => ~ starved a) (fst (session toy cut_calls (cut_new (bytewise cut_wire)))) /\
  forall more, exists c0', cn_new toy (zeros 400) (zeros 300) (bytewise cut_wire ++ more) silent = Ok c0' /\
    fst (session toy cut_calls c0') = [A_open (Ok tt); A_op (Ok (VBytes [x68; x69])); A_op (Ok (VRead 1 [x68])); A_op (Ok (VCount 1)); A_op (Ok VUnit); A_op (Ok VUnit);
     A_op (Ok (VBytes [x21])); A_op (Ok VUnit); A_op (Err CryptoError); A_op (Ok (VBytes [x6f; x6b])); A_op (Ok VUnit)].
Proof.
  destruct C56_case as (Hp & _ & _ & Hn & Ha).
  assert (Hc : Forall call_returns cut_calls) by (apply Forall_forall; intros [p cfg v|o] Hx; [exact (Hp p cfg v Hx)|exact I]).
  assert (Hs : Forall (fun a => ~ starved a) (fst (session toy cut_calls (cut_new (bytewise cut_wire))))).
  { rewrite Ha. repeat constructor; intros [X|X]; discriminate X. }
  split; [exact Hc|]. split; [exact Hs|]. intros more. destruct (session toy cut_calls (cut_new (bytewise cut_wire))) as [rs c] eqn:E. cbn [fst] in *.
  destruct (C77_session unit toy cut_calls (zeros 400) (zeros 300) (bytewise cut_wire) more silent _ rs c Hc Hn E Hs) as (c0' & H1 & H2).
  exists c0'. split; [exact H1|]. rewrite H2. exact Ha.
Qed.

(** A record of the server: all of it there, "hi" is returned and nothing else asked for; the last byte missing, the call waits;
    with "hi" decrypted, nothing is asked for either. *)
Example C77_record_case : let c := conn_in (toy_data 0 ty_data [x68; x69] 3) in
  (waiting toy 300 c /\ incoming c = rfc_record toy (read_key c) (read_iv c) (next_seq c) ty_data [x68; x69] 3 ++ [] /\
   length [x68; x69] + 1 + 3 + tag_len toy <= room c /\ (next_seq c < u64_max)%N) /\
  fst (step toy OpFillBuf (later [RxCancel] c)) = Ok (VBytes [x68; x69]) /\
  fst (step toy OpFillBuf (later [RxCancel] (conn_in (removelast (toy_data 0 ty_data [x68; x69] 3))))) = Cancelled /\
  unread (snd (step toy OpFillBuf c)) = [x68; x69].
Proof.
  cbv zeta. assert (Hw : waiting toy 300 (conn_in (toy_data 0 ty_data [x68; x69] 3))) by apply conn_in_waiting.
  assert (Hi : incoming (conn_in (toy_data 0 ty_data [x68; x69] 3)) = rfc_record toy (read_key (conn_in (toy_data 0 ty_data [x68; x69] 3)))
     (read_iv (conn_in (toy_data 0 ty_data [x68; x69] 3))) (next_seq (conn_in (toy_data 0 ty_data [x68; x69] 3))) ty_data [x68; x69] 3 ++ []) by (vm_compute; reflexivity).
  assert (Hr : length [x68; x69] + 1 + 3 + tag_len toy <= room (conn_in (toy_data 0 ty_data [x68; x69] 3))) by (apply Nat.leb_le; vm_compute; reflexivity).
  assert (Hn : (next_seq (conn_in (toy_data 0 ty_data [x68; x69] 3)) < u64_max)%N) by (vm_compute; reflexivity).
  split; [split; [exact Hw|split; [exact Hi|split; [exact Hr|exact Hn]]]|].
  split; [|split].
  - destruct (C77_record toy 300 _ [x68; x69] 3 [] [RxCancel] toy_ok Hw ltac:(discriminate) Hr eq_refl Hn Hi) as (c' & left & E & _). now rewrite E.
  - vm_compute. reflexivity.
  - vm_compute. reflexivity.
Qed.

(** A server that sends nothing: [open] meets the end, with the ClientHello sent and flushed. *)
Example C77_flushed_case : transport_succeeds (cut_new []) /\
  fst (cn_open toy plain_provider small_config tt (cut_new [])) = Err IoError /\
  exists b, sent_log (snd (cn_open toy plain_provider small_config tt (cut_new []))) = [TxWrite b (length b); TxFlush].
Proof. split; [repeat constructor|]. split; [vm_compute; reflexivity|].
  exists (match sent_log (snd (cn_open toy plain_provider small_config tt (cut_new []))) with TxWrite b _ :: _ => b | _ => [] end). vm_compute. reflexivity.
Qed.

Print Assumptions C77_call.
Print Assumptions C77_open.
Print Assumptions C77_session.
Print Assumptions C77_handshake.
Print Assumptions C77_data.
Print Assumptions C77_record.
Print Assumptions C77_no_wait.
Print Assumptions C77_flushed.
