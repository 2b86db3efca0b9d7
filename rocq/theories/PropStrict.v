(** * C73: what RFC 8446 tells a receiver to refuse *)
From Coq Require Import String List NArith Arith Bool Lia ZArith.
From Coq.Strings Require Import Byte.
From Coq Require Import ZifyBool ZifyNat ZifyN.
From Verif Require Import Base ParseBuffer Buffer Codes Extensions Crypto KeySchedule Config Handshake Record WriteBuffer
  Transport RecordReader ReadBuffer Connection Api BaseProofs SpecWire WireProofs SpecCodes SpecMessages SpecKeys KeyProofs SpecRecord RecordProofs SpecRead
  SpecSend SendProofs SpecHello PropHello HsProofs ConnProofs FrameProofs DecryptProofs FlagProofs ReadProofs RecvProofs ServeProofs SpecHandshake SpecComplete CompleteProofs
  SpecFailure SpecReceiver ListenProofs ReceiverProofs PropReceiver PropComplete SpecOffers PropOffers Toy ToyRun ToyServer PropRead PropRecv PropSizes.
Import ListNotations.
Local Open Scope list_scope.

Ltac Zify.zify_post_hook ::= Z.div_mod_to_equations.

(** RFC 8446 section 5.2: "The length MUST NOT exceed 2^14 + 256 bytes". *)
Definition most_fragment : N := 16640.

(** ** What the machine of SpecReceiver.v says of one call *)

Lemma waiting_machine C L c o r c' v n' w' : crypto_ok C -> waiting C L c -> waits o = true -> step C o c = (r, c') ->
  hears C (read_key c) (read_iv c) (room c) (next_seq c) (incoming c) v n' w' ->
  (forall d, v = V_data d -> o = OpFillBuf -> d <> [] -> r = Ok (VBytes d) /\ receiver_of c' = mk_receiver true d n' w') /\
  (v = V_closed -> r = Err ConnectionClosed /\ receiver_of c' = mk_receiver false [] n' w') /\
  (forall e, v = V_error e -> r = Err e /\ receiver_of c' = mk_receiver true [] n' w').
Proof.
  intros HC (Hu & Hop & Hun & Hb & Hs) Hw E Hh. assert (Hl : listening C L c) by (split; [exact Hu|split; assumption]).
  pose proof (listening_mirrors C L c HC Hl) as Hm. assert (Hr : receives o = true) by (destruct o; (reflexivity || discriminate Hw)).
  assert (Hst : receiver_of c = mk_receiver true [] (next_seq c) (incoming c)) by (unfold receiver_of; now rewrite Hop, Hun).
  assert (U : forall r' s', receive C (read_key c) (read_iv c) (room c) (mk_receiver true [] (next_seq c) (incoming c)) o r' s' -> (forall x, r' <> Panic x) ->
     r = r' /\ receiver_of c' = s').
  { intros r' s' H' Hnp. destruct (machine_step C (incoming c) c o r c' HC Hm Hr E) as [(x & -> & M)|(M & _)].
    - specialize (M s'). rewrite Hst in M. destruct (receive_unique _ _ _ _ _ _ _ _ _ _ Hr M H') as [A _]. now destruct (Hnp x).
    - rewrite Hst in M. destruct (receive_unique _ _ _ _ _ _ _ _ _ _ Hr M H') as [A S]. split; [exact A|].
      destruct (receive_unique _ _ _ _ _ _ _ _ _ _ Hr H' M) as [_ S']. symmetry. apply S'. exact Hnp. }
  split; [|split].
  - intros d -> -> Hd. destruct (U (Ok (VBytes d)) (mk_receiver true d n' w')) as [A S]; try discriminate.
    + eapply rc_data; [reflexivity|exact Hh|now eexists|now apply tk_fill].
    + auto.
  - intros ->. destruct (U (Err ConnectionClosed) (mk_receiver false [] n' w')) as [A S]; try discriminate.
    + now apply rc_closed.
    + auto.
  - intros e ->. destruct (U (Err e) (mk_receiver true [] n' w')) as [A S]; try discriminate.
    + now apply rc_error.
    + auto.
Qed.

(** An authentic record. *)
Lemma authentic_record C key iv room n t b pad : crypto_ok C -> t <> x00 -> length b + 1 + pad + tag_len C <= room ->
  (N.of_nat (length b + 1 + pad + tag_len C) < 65536)%N ->
  exists h f, rfc_record C key iv n t b pad = h ++ f /\ readable room (h, f) /\
    (forall v, content_is C t b v -> counted v = true -> (n < u64_max)%N -> record_is C key iv n h f v (n + 1)) /\
    (forall v, content_is C t b v -> counted v = false -> record_is C key iv n h f v n).
Proof.
  intros HC Ht Hr Hs. rewrite (ok_tag_len C HC) in Hr, Hs. destruct (rfc_record_parts C key iv n t b pad HC) as (f & E & Hlen & Ho).
  eexists _, f. split; [exact E|]. split; [split; [apply rfc_header_framed; assumption|split; [cbn; auto 10|cbn [snd]; lia]]|].
  split; intros v Hc Hv; [intros Hn|]; [eapply ri_taken|eapply ri_other]; try eassumption; try reflexivity; now apply unpad_inner.
Qed.

(** ** Records that are too long *)

(** Records longer than that are taken, and their data delivered, by every connection with a read buffer that holds them. *)
Theorem C73_oversize_refuted : forall C L c d pad rest, crypto_ok C -> waiting C L c ->
  incoming c = rfc_record C (read_key c) (read_iv c) (next_seq c) ty_data d pad ++ rest ->
  d <> [] -> (most_fragment < N.of_nat (length d + 1 + pad + tag_len C))%N ->
  length d + 1 + pad + tag_len C <= room c -> (N.of_nat (length d + 1 + pad + tag_len C) < 65536)%N -> (next_seq c < u64_max)%N ->
  fst (step C OpFillBuf c) = Ok (VBytes d).
Proof.
  intros C L c d pad rest HC Hw Hin Hd _ Hr Hs Hn.
  now apply (proj1 (C18_exact C L c OpFillBuf ty_data d pad rest HC Hw eq_refl ltac:(discriminate) Hin Hr Hs Hn)).
Qed.

Lemma hears_overlong C key iv room n h w v n' w' : length h = 5 -> type_known h -> (N.of_nat room < be_val (skipn 3 h))%N ->
  hears C key iv room n (h ++ w) v n' w' -> v = V_error InsufficientSpace /\ n' = n /\ w' = w.
Proof.
  intros Hl Ht Hb H.
  assert (R : forall h' f rest, readable room (h', f) -> h' ++ f ++ rest <> h ++ w).
  { intros h' f rest ((L1 & L2) & _ & L3) E. cbn [fst snd] in *. destruct (head_unique h' h _ _ L1 Hl E) as [-> _]. lia. }
  remember (h ++ w) as W eqn:E. destruct H as [n h' f' rest' v2 n2 v3 n3 w3 Hr' Hi' Hp' Hh'|n h' f' rest' v2 n2 Hr' Hi' Hp'|n w2 Hl'|n h' w2 Hl' Ht'|n h' k' w2 Hl' Ht' Hk' Hroom'|n h' k' w2 Hl' Ht' Hk' Hroom' Hw'].
  - exact (False_ind _ (R _ _ _ Hr' eq_refl)).
  - exact (False_ind _ (R _ _ _ Hr' eq_refl)).
  - subst w2. rewrite app_length in Hl'. lia.
  - destruct (head_unique h' h _ _ Hl' Hl E) as [-> _]. contradiction.
  - destruct (head_unique h' h _ _ Hl' Hl E) as [_ ->]. auto.
  - destruct (head_unique h' h _ _ Hl' Hl E) as [-> _]. lia.
Qed.

(** With a read buffer of the documented size they are refused: the call ends with [InsufficientSpace] and nothing is delivered.
    Missing: that the session is over then.  It stays open, and the next call takes the bytes after the header for another header. *)
Theorem C73_oversize_partial : forall C L c o h w, crypto_ok C -> waiting C L c -> waits o = true ->
  incoming c = h ++ w -> length h = 5 -> type_known h -> (most_fragment < be_val (skipn 3 h))%N -> (N.of_nat (room c) <= most_fragment)%N ->
  exists c', step C o c = (Err InsufficientSpace, c') /\ receiver_of c' = mk_receiver true [] (next_seq c) w.
Proof.
  intros C L c o h w HC Hw Ho Hin Hl Ht Hb Hr. destruct (step C o c) as [r c'] eqn:E. exists c'.
  assert (Hh : forall v n' w', hears C (read_key c) (read_iv c) (room c) (next_seq c) (incoming c) v n' w' -> v = V_error InsufficientSpace /\ n' = next_seq c /\ w' = w).
  { intros v n' w'. rewrite Hin. apply hears_overlong; [exact Hl|exact Ht|lia]. }
  pose proof Hw as (Hu & Hop & Hun & Hbd & Hs). assert (Hli : listening C L c) by (split; [exact Hu|split; assumption]).
  assert (Hrc : receives o = true) by (destruct o; (reflexivity || discriminate Ho)).
  assert (Hst : receiver_of c = mk_receiver true [] (next_seq c) (incoming c)) by (unfold receiver_of; now rewrite Hop, Hun).
  assert (M : receive C (read_key c) (read_iv c) (room c) (receiver_of c) o r (receiver_of c')).
  { destruct (machine_step C (incoming c) c o r c' HC (listening_mirrors C L c HC Hli) Hrc E) as [(x & -> & M)|(M & _)]; [apply M|exact M]. }
  rewrite Hst in M. remember (mk_receiver true [] (next_seq c) (incoming c)) as q0 eqn:Eq0. remember (receiver_of c') as q1 eqn:Eq1.
  destruct M as [q o r got q' Hor _ _|q o Hor|n w0 o r d n' w' got q' _ Hx _ _|n w0 o e n' w' _ Hx|n w0 o n' w' _ Hx|n w0 o x n' w' s' _ Hx];
    try (injection Eq0 as -> ->; destruct (Hh _ _ _ Hx) as (X & -> & ->); (discriminate X || (injection X as ->; auto))).
  - subst q. destruct Hor as [[_ Hor]|Hor]; [cbn [q_data] in Hor; congruence|congruence].
  - subst q. discriminate Hor.
Qed.

(** ** Empty handshake records *)

(** Records with an inner type of handshake and no content, each with its padding, from the number [n] on. *)
Fixpoint hollow_wire (C : crypto) (key iv : bytes) (n : N) (pads : list nat) : bytes :=
  match pads with
  | [] => []
  | pad :: pads => rfc_record C key iv n ty_handshake [] pad ++ hollow_wire C key iv (n + 1) pads
  end.

(** RFC 8446 section 5.4: "Implementations MUST NOT send Handshake and Alert records that have a zero-length
    TLSInnerPlaintext.content; if such a message is received, the receiving implementation MUST terminate the connection with an
    "unexpected_message" alert."  Any number of such records is passed over. *)
Theorem C73_hollow_refuted : forall C L c pads d pad rest, crypto_ok C -> waiting C L c ->
  incoming c = hollow_wire C (read_key c) (read_iv c) (next_seq c) pads ++
    rfc_record C (read_key c) (read_iv c) (next_seq c + N.of_nat (length pads)) ty_data d pad ++ rest ->
  Forall (fun k => 1 + k + tag_len C <= room c /\ (N.of_nat (1 + k + tag_len C) < 65536)%N) pads ->
  d <> [] -> length d + 1 + pad + tag_len C <= room c -> (N.of_nat (length d + 1 + pad + tag_len C) < 65536)%N ->
  (next_seq c + N.of_nat (length pads) < u64_max)%N ->
  fst (step C OpFillBuf c) = Ok (VBytes d).
Proof.
  intros C L c pads d pad rest HC Hw Hin Hp Hd Hr Hs Hn.
  assert (Hh : forall n, (n + N.of_nat (length pads) < u64_max)%N ->
    hears C (read_key c) (read_iv c) (room c) n (hollow_wire C (read_key c) (read_iv c) n pads ++
      rfc_record C (read_key c) (read_iv c) (n + N.of_nat (length pads)) ty_data d pad ++ rest) (V_data d) (n + N.of_nat (length pads) + 1) rest).
  { clear Hin Hn. induction pads as [|k pads IH]; intros n Hn; cbn [hollow_wire app length] in *.
    - replace (n + N.of_nat 0)%N with n in * by lia.
      destruct (authentic_record C (read_key c) (read_iv c) (room c) n ty_data d pad HC ltac:(discriminate) Hr Hs) as (h & f & -> & Hrd & Hi & _).
      rewrite <- app_assoc. apply he_record; [exact Hrd|apply Hi; [apply ci_data|reflexivity|exact Hn]|]. destruct d; [congruence|reflexivity].
    - inversion Hp as [|? ? [P1 P2] Hp']; subst.
      destruct (authentic_record C (read_key c) (read_iv c) (room c) n ty_handshake [] k HC ltac:(discriminate) P1 P2) as (h & f & -> & Hrd & Hi & _).
      rewrite <- !app_assoc. eapply he_next; [exact Hrd|apply Hi; [exact (ci_tickets C [] (Forall_nil _))|reflexivity|lia]|reflexivity|].
      replace (n + N.of_nat (S (length pads)))%N with ((n + 1) + N.of_nat (length pads))%N by lia. apply IH; [exact Hp'|lia]. }
  destruct (step C OpFillBuf c) as [r c'] eqn:E. cbn [fst]. specialize (Hh _ Hn). rewrite <- Hin in Hh.
  now apply (proj1 (waiting_machine C L c OpFillBuf r c' _ _ _ HC Hw eq_refl E Hh) d).
Qed.

(** ** More than an alert *)

(** RFC 8446 section 5.1: "multiple alert messages MUST NOT be coalesced into a single TLSPlaintext record.  In other words, a
    record with an Alert type MUST contain exactly one message."  A record that begins with close_notify ends the session as one, whatever
    follows in it: another alert, for instance. *)
Theorem C73_second_alert_refuted : forall C L c o lvl more pad rest, crypto_ok C -> waiting C L c -> waits o = true ->
  lvl = x01 \/ lvl = x02 ->
  incoming c = rfc_record C (read_key c) (read_iv c) (next_seq c) ty_alert (lvl :: x00 :: more) pad ++ rest ->
  length (lvl :: x00 :: more) + 1 + pad + tag_len C <= room c -> (N.of_nat (length (lvl :: x00 :: more) + 1 + pad + tag_len C) < 65536)%N ->
  exists c', step C o c = (Err ConnectionClosed, c') /\ cn_opened c' = false.
Proof.
  intros C L c o lvl more pad rest HC Hw Ho Hlvl Hin Hr Hs.
  destruct (authentic_record C (read_key c) (read_iv c) (room c) (next_seq c) ty_alert _ pad HC ltac:(discriminate) Hr Hs) as (h & f & E & Hrd & _ & Hi).
  rewrite E, <- app_assoc in Hin. destruct (step C o c) as [r c'] eqn:Es.
  assert (Hh : hears C (read_key c) (read_iv c) (room c) (next_seq c) (incoming c) V_closed (next_seq c) rest).
  { rewrite Hin. apply he_record; [exact Hrd| |reflexivity]. apply Hi; [|reflexivity].
    destruct Hlvl as [-> | ->]; [apply ci_close with (l := AL_Warning)|apply ci_close with (l := AL_Fatal)]; exists more; reflexivity. }
  destruct (proj1 (proj2 (waiting_machine C L c o r c' _ _ _ HC Hw Ho Es Hh)) eq_refl) as [-> S]. exists c'. split; [reflexivity|].
  apply (f_equal q_open) in S. exact S.
Qed.

(** ** Records that are not authentic *)

(** RFC 8446 section 5.2: "If the decryption fails, the receiver MUST terminate the connection with a "bad_record_mac" alert."  The
    client reports the error; it sends no alert, the session stays open and the next record is read as if nothing had been. *)
Theorem C73_forged_refuted : forall C L c o h f d pad rest, crypto_ok C -> waiting C L c -> waits o = true ->
  incoming c = h ++ f ++ rfc_record C (read_key c) (read_iv c) (next_seq c) ty_data d pad ++ rest ->
  framed h f -> hd_error h = Some ty_data -> length f <= room c -> rfc_open C (read_key c) (read_iv c) (next_seq c) h f = None ->
  d <> [] -> length d + 1 + pad + tag_len C <= room c -> (N.of_nat (length d + 1 + pad + tag_len C) < 65536)%N -> (next_seq c < u64_max)%N ->
  exists c', step C o c = (Err CryptoError, c') /\ cn_opened c' = true /\ sent_log c' = sent_log c /\
    fst (step C OpFillBuf c') = Ok (VBytes d).
Proof.
  intros C L c o h f d pad rest HC Hw Ho Hin Hf Hty Hl Hop Hd Hr Hs Hn.
  destruct (C32_forged C L c o h f _ HC Hw Ho Hin Hf Hty Hl Hop) as (c' & E & U1 & U2 & U3 & U4 & U5 & U6 & U7). exists c'. split; [exact E|].
  split; [apply U1|]. split; [unfold sent_log; now rewrite U7|].
  apply (proj1 (C18_exact C L c' OpFillBuf ty_data d pad rest HC U1 eq_refl ltac:(discriminate) ltac:(rewrite U4, U5, U6; exact U2) ltac:(now rewrite U3) Hs ltac:(now rewrite U4))); auto.
Qed.

(** ** change_cipher_spec *)

(** change_cipher_spec records, with whatever in them. *)
Definition odd_ccs (room : nat) (hf : bytes * bytes) : Prop :=
  framed (fst hf) (snd hf) /\ hd_error (fst hf) = Some ty_ccs /\ length (snd hf) <= room.

Lemma ccs_uncounted room rs ccs : Forall (odd_ccs room) ccs ->
  protected_in (ccs ++ rs) = protected_in rs /\ Forall (fun r => length (snd r) <= room) ccs.
Proof.
  intros H. induction H as [|[h f] ccs (H1 & H2 & H3) _ (I2 & I3)]; [auto|]. cbn [fst snd app] in *. split; [|now constructor].
  unfold protected_in in *. cbn [filter fst]. destruct h as [|t h]; [discriminate H2|]. injection H2 as ->. exact I2.
Qed.

Lemma ccs_carried C key iv room n rs ms ccs : Forall (odd_ccs room) ccs -> carried C key iv n rs ms -> carried C key iv n (ccs ++ rs) ms.
Proof. intros H Hc. induction H as [|[h f] ccs (H1 & H2 & H3) _ IH]; [exact Hc|]. cbn [fst snd app] in *. now apply ca_ccs. Qed.

Lemma whole_with_ccs C room h f w ccs x rest : framed h f -> Forall (odd_ccs room) ccs ->
  whole_flight C room (h ++ f ++ w) x rest -> whole_flight C room (h ++ f ++ wire_of ccs ++ w) x rest.
Proof.
  intros Hf Hccs (h0 & junk & rs & r & ms1 & ms2 & Ew & Hf0 & Ht & Hu & Hso & Em & Hc1 & Hc2 & Hnf & Hms & Hroom & Hcnt).
  unfold wire_of in Ew. cbn [map concat fst snd] in Ew. fold (wire_of (rs ++ [r])) in Ew. rewrite <- !app_assoc in Ew.
  destruct (split_unique h f w h0 (x_shello x ++ junk) (wire_of (rs ++ [r]) ++ rest) Hf Hf0) as (-> & -> & ->); [now rewrite <- !app_assoc|].
  pose proof (ccs_carried C (x_skey x) (x_siv x) room 0 rs _ ccs Hccs Hc1) as C1. destruct (ccs_uncounted room rs ccs Hccs) as [C2 C3].
  exists h0, junk, (ccs ++ rs), r, ms1, ms2. split.
  { unfold wire_of at 3. cbn [map concat fst snd]. fold (wire_of ((ccs ++ rs) ++ [r])). rewrite <- !app_assoc. unfold wire_of. rewrite !map_app, !concat_app, <- !app_assoc. reflexivity. }
  do 5 (split; [assumption|]). split; [exact C1|]. split; [rewrite C2; exact Hc2|]. split; [exact Hnf|]. split; [exact Hms|].
  inversion Hroom as [|? ? R1 R2]; subst. split.
  - constructor; [exact R1|]. rewrite <- app_assoc. apply Forall_app. split; [exact C3|exact R2].
  - rewrite <- app_assoc. destruct (ccs_uncounted room (rs ++ [r]) ccs Hccs) as [C4 _]. now rewrite C4.
Qed.

(** RFC 8446 section 5: a change_cipher_spec record "consisting of the single byte value 0x01" is to be dropped during the
    handshake, and "an implementation [...] which receives any other change_cipher_spec value [...] MUST abort the handshake".  If
    [open] succeeds with what a server sends, it does so, too, with any such records, of any content, put after the first record. *)
Theorem C73_ccs_refuted : forall V C (p : provider V) cfg rbuf wbuf rx rx' tx v c0 c0' h f w ccs, crypto_ok C -> length (p_random p) = 32 ->
  Forall (eq WrOk) (tx_wr tx) -> Forall (eq FlOk) (tx_fl tx) ->
  cn_new C rbuf wbuf rx tx = Ok c0 -> cn_new C rbuf wbuf rx' tx = Ok c0' -> chunked rx -> chunked rx' ->
  framed h f -> stream rx = h ++ f ++ w -> stream rx' = h ++ f ++ wire_of ccs ++ w -> Forall (odd_ccs (length rbuf)) ccs ->
  fst (cn_open C p cfg v c0) = Ok tt -> fst (cn_open C p cfg v c0') = Ok tt.
Proof.
  intros V C p cfg rbuf wbuf rx rx' tx v c0 c0' h f w ccs HC Hr H1 H2 N1 N2 Ch1 Ch2 Hf E1 E2 Hccs Ho.
  destruct (C51_exactly V C p cfg wbuf tx v HC Hr H1 H2) as (hello & _ & H).
  destruct (proj1 (H rbuf rx c0 N1 Ch1) Ho) as (Hsz & x & rest & v0 & v1 & ms & Ht & Hx & Hwf & Hrest).
  apply (proj2 (H rbuf rx' c0' N2 Ch2)). split; [exact Hsz|]. exists x, rest, v0, v1, ms. split; [exact Ht|]. split; [exact Hx|]. split; [|exact Hrest].
  rewrite E2. apply whole_with_ccs; [exact Hf|exact Hccs|]. now rewrite <- E1.
Qed.

(** ** Extensions given twice *)

(** RFC 8446 section 4.2: "There MUST NOT be more than one extension of the same type in a given extension block."  For every
    client there is a server that answers the name of the server twice, and [open] succeeds with it. *)
Theorem C73_duplicates_refuted : forall V C (p : provider V) cfg wbuf rbuf tx v v0 shello suite items group share dhe,
  crypto_ok C -> length (p_random p) = 32 ->
  hello_size cfg (length (c_pub C (p_secret p))) (hash_len C) <= length wbuf -> hash_len C + 26 <= length wbuf ->
  Forall (eq WrOk) (tx_wr tx) -> Forall (eq FlOk) (tx_fl tx) -> told p cfg v v0 ->
  understood C shello (M_ServerHello suite items) -> share_of items group share -> fits 2 shello -> length shello <= length rbuf ->
  c_dh C (p_secret p) share = Some dhe ->
  hash_len C + 35 <= length rbuf -> (N.of_nat (hash_len C + 35) < 65536)%N ->
  let twice := [(0%N, []); (0%N, [])] in
  exists x, x_shello x = shello /\ x_before x = [(ee_message twice, M_EncryptedExtensions twice)] /\
    secrets_ok C (option_map fst (cfg_psk cfg)) (p_secret p) x /\ finishes C x /\
    forall rx c0, cn_new C rbuf wbuf rx tx = Ok c0 -> chunked rx -> stream rx = flight_wire C x [P_messages (x_msgs x) 0] ->
      exists c, cn_open C p cfg v c0 = (Ok tt, c).
Proof.
  intros V C p cfg wbuf rbuf tx v v0 shello suite items group share dhe HC Hr Hsz Hw H1 H2 Ht Hu Hso Hf Hl Hd R1 R2 twice.
  destruct (C65_any V C p cfg wbuf rbuf tx v v0 shello suite items group share dhe twice HC Hr Hsz Hw H1 H2 Ht Hu Hso Hf Hl Hd)
    as (x & E & Eb & Hsec & Hfin & Hgo).
  - split; [|reflexivity]. unfold twice. constructor; [split; reflexivity|]. constructor; [split; reflexivity|constructor].
  - split; [|cbn; lia]. intros t b [Hin|[Hin|[]]]; apply pair_equal_spec in Hin as [<- <-]; (split; [cbn; auto 10|reflexivity]).
  - change (length (ee_message twice)) with 14. lia.
  - change (length (ee_message twice)) with 14. lia.
  - exists x. split; [exact E|]. split; [exact Eb|]. split; [exact Hsec|]. split; [exact Hfin|]. intros rx c0 Hnew Hch Hst.
    destruct (Hgo rx c0 Hnew Hch Hst) as (c & _ & Ho & _). eauto.
Qed.

(** ** Concrete cases *)

Lemma one_chunk w : stream [RxData w] = w.
Proof. unfold stream. cbn. apply app_nil_r. Qed.

(** A client with a read buffer of 20000 bytes, and a record of 17000 bytes of data. *)
Example C73_oversize_case : exists c d, waiting toy 300 c /\ room c = N.to_nat 20000 /\ N.of_nat (length d) = 17000%N /\
  incoming c = rfc_record toy (read_key c) (read_iv c) (next_seq c) ty_data d 0 ++ [] /\ fst (step toy OpFillBuf c) = Ok (VBytes d).
Proof.
  destruct full_hypotheses as ((evs & Hs) & Hstr & Hsz & Ht & Hsec & Hfin & Hacc & Hsf & Hans & Hlen & _ & (key & iv & Hk)).
  destruct (C44_handshake nat toy full_provider small_config (zeros 300) silent 0 1 toy_ok eq_refl Hsz (Forall_nil _) (Forall_nil _) Ht) as (hello & Hpin & Hgo).
  assert (Eh : x_hello full_exchange = hello).
  { destruct (Hpin _ _ _ full_start_new) as [evs' E]. rewrite E in Hs. exact (goes_out_inj _ _ _ _ (eq_sym Hs)). }
  set (d := repeat x41 (N.to_nat 17000)). assert (Hd : length d = N.to_nat 17000) by apply repeat_length.
  assert (Hw0 : exists w, w = flight_wire toy full_exchange full_parts ++ rfc_record toy key iv 0 ty_data d 0 /\ w <> []).
  { eexists. split; [reflexivity|]. unfold flight_wire. intros E. apply app_eq_nil in E as [E _]. apply app_eq_nil in E as [E _].
    apply (f_equal (@length byte)) in E. rewrite uint_length in E. discriminate E. }
  destruct Hw0 as (w & Ew & Hne).
  set (rbuf := repeat x00 (N.to_nat 20000)). assert (Hrb : length rbuf = N.to_nat 20000) by apply repeat_length. clearbody rbuf d.
  destruct (proj2 (proj2 (C63_overhead_refuted toy rbuf (zeros 300) [RxData w] silent)) ltac:(rewrite zeros_length; lia)) as [c0 Hnew].
  assert (Hfol : followable toy (length rbuf) full_exchange full_parts).
  { destruct full_followable as (F1 & F2 & F3 & F4 & F5 & F6 & F7 & F8 & F9). repeat (split; [assumption|]). split; [rewrite Hrb; lia|]. repeat (split; [assumption|]). split; [|exact F9].
    eapply Forall_impl; [|exact F8]. intros [|ms pad]; cbn [part_fits]; rewrite ?Hrb; lia. }
  assert (Hch : chunked [RxData w]) by (constructor; [|constructor]; exists w; auto).
  assert (Hwf : whole_flight toy (length rbuf) (stream [RxData w]) full_exchange (rfc_record toy key iv 0 ty_data d 0)).
  { rewrite one_chunk, Ew. apply C44_server_flight; [exact toy_ok|exact Hfol]. }
  destruct (Hgo rbuf [RxData w] c0 full_exchange (rfc_record toy key iv 0 ty_data d 0) 3 full_answer Hnew Hch Eh Hwf Hsec Hfin (fun _ => Hacc) Hsf Hans Hlen)
    as (c & Ho & _ & Hin & Hst & Hroom & _ & _ & Hk').
  destruct (session_keys_unique _ _ _ _ _ _ _ _ Hk Hk') as [Ek Ei].
  assert (He : established toy 300 c) by (exists nat, full_provider, small_config, 0, rbuf, (zeros 300), [RxData w], silent, c0; auto).
  destruct (C54_start toy 300 c toy_ok He Hst) as ((L1 & L2 & L3) & Lr). unfold receiver_of in Lr.
  assert (Hw : waiting toy 300 c) by (repeat (split; [first [exact L1 | exact L2 | congruence]|]); exact L3).
  assert (Hin' : incoming c = rfc_record toy (read_key c) (read_iv c) (next_seq c) ty_data d 0 ++ []) by (rewrite app_nil_r, Hin; congruence).
  exists c, d. split; [exact Hw|]. split; [now rewrite Hroom|]. split; [rewrite Hd; reflexivity|]. split; [exact Hin'|].
  assert (Hn : next_seq c = 0%N) by congruence. change (tag_len toy) with 16 in *.
  apply (C73_oversize_refuted toy 300 c d 0 [] toy_ok Hw Hin'); rewrite ?Hd, ?Hn, ?Hroom, ?Hrb; change (tag_len toy) with 16; unfold most_fragment; try lia; try reflexivity.
  intros ->. change (0 = N.to_nat 17000) in Hd. lia.
Qed.

(** Two empty handshake records before "hi"; a close_notify with a second alert behind it; a forged record before "hi"; with a read
    buffer of 400 bytes a record of 17000. *)
Example C73_case :
  (let c := conn_in (hollow_wire toy (read_key (conn_in [])) (read_iv (conn_in [])) 0 [0; 3] ++ toy_data 2 ty_data [x68; x69] 0) in
   waiting toy 300 c /\
   incoming c = hollow_wire toy (read_key c) (read_iv c) (next_seq c) [0; 3] ++ rfc_record toy (read_key c) (read_iv c) (next_seq c + 2) ty_data [x68; x69] 0 ++ [] /\
   fst (step toy OpFillBuf c) = Ok (VBytes [x68; x69])) /\
  (let c := conn_in (toy_data 0 ty_alert [x01; x00; x02; x28] 0) in
   waiting toy 300 c /\ incoming c = rfc_record toy (read_key c) (read_iv c) (next_seq c) ty_alert [x01; x00; x02; x28] 0 ++ [] /\
   fst (step toy OpFillBuf c) = Err ConnectionClosed) /\
  (let c := conn_in (forged_one ++ toy_data 0 ty_data [x68; x69] 3) in
   waiting toy 300 c /\ incoming c = rfc_header 20 ++ repeat x00 20 ++ rfc_record toy (read_key c) (read_iv c) (next_seq c) ty_data [x68; x69] 3 ++ [] /\
   rfc_open toy (read_key c) (read_iv c) (next_seq c) (rfc_header 20) (repeat x00 20) = None) /\
  (let c := conn_in ([x17; x03; x03; x42; x68] ++ [x00]) in
   waiting toy 300 c /\ (most_fragment < be_val (skipn 3 [x17; x03; x03; x42; x68]))%N /\ (N.of_nat (room c) <= most_fragment)%N /\
   fst (step toy OpFillBuf c) = Err InsufficientSpace).
Proof.
  cbv zeta. split; [|split; [|split]]; (split; [apply conn_in_waiting|]).
  - split; vm_compute; reflexivity.
  - split; vm_compute; reflexivity.
  - split; vm_compute; reflexivity.
  - split; [reflexivity|]. split; [vm_compute; discriminate|vm_compute; reflexivity].
Qed.

(** The server of ToyServer.v with two change_cipher_spec records more, one empty and one of three bytes. *)
Definition odd_two : list (bytes * bytes) := [([x14; x03; x03; x00; x00], []); ([x14; x03; x03; x00; x03], [x02; x02; x02])].
Definition odd_rx : list rx_event :=
  [RxData (hd [] full_records ++ wire_of odd_two ++ concat (tl full_records) ++ [x17; x03])].

Example C73_ccs_case : exists c0', cn_new toy (zeros 400) (zeros 300) odd_rx silent = Ok c0' /\ Forall (odd_ccs 400) odd_two /\
  fst (cn_open toy full_provider small_config 0 c0') = Ok tt.
Proof.
  destruct (proj2 (proj2 (C63_overhead_refuted toy (zeros 400) (zeros 300) odd_rx silent)) ltac:(rewrite zeros_length; lia)) as [c0' Hnew].
  assert (Ho : Forall (odd_ccs 400) odd_two).
  { constructor; [|constructor; [|constructor]]; (split; [split; reflexivity|]; split; [reflexivity|]; cbn; lia). }
  exists c0'. split; [exact Hnew|]. split; [exact Ho|].
  apply (C73_ccs_refuted nat toy full_provider small_config (zeros 400) (zeros 300) full_rx odd_rx silent 0 full_start c0'
    (firstn 5 (hd [] full_records)) (skipn 5 (hd [] full_records)) (concat (tl full_records) ++ [x17; x03]) odd_two toy_ok eq_refl (Forall_nil _) (Forall_nil _) full_start_new Hnew).
  - unfold chunked, full_rx. constructor; [|constructor; [|constructor; [|constructor]]]; eexists; (split; [reflexivity|discriminate]).
  - constructor; [|constructor]; eexists; (split; [reflexivity|discriminate]).
  - split; reflexivity.
  - vm_compute. reflexivity.
  - vm_compute. reflexivity.
  - exact Ho.
  - now rewrite full_conn_opened.
Qed.

(** The hypotheses of [C73_duplicates_refuted]: those of [C65_any] (PropOffers.v, [C65_case]); the sizes: *)
Example C73_duplicates_case : hash_len toy + 35 <= 400 /\ (N.of_nat (hash_len toy + 35) < 65536)%N.
Proof. split; [vm_compute; lia|reflexivity]. Qed.

Print Assumptions C73_oversize_refuted.
Print Assumptions C73_oversize_partial.
Print Assumptions C73_hollow_refuted.
Print Assumptions C73_second_alert_refuted.
Print Assumptions C73_forged_refuted.
Print Assumptions C73_ccs_refuted.
Print Assumptions C73_duplicates_refuted.
