(** * C66: the maximum fragment length *)
From Coq Require Import String List NArith Arith Bool Lia ZArith.
From Coq.Strings Require Import Byte.
From Coq Require Import ZifyBool ZifyNat ZifyN.
From Verif Require Import Base Buffer Codes Extensions Crypto KeySchedule Config Handshake Record WriteBuffer
  Transport RecordReader ReadBuffer Connection Api
  BaseProofs SpecWire WireProofs SpecCodes SpecMessages SpecKeys KeyProofs SpecRecord RecordProofs SpecSend WriteProofs SendProofs SpecHello HelloProofs PropHello
  HsWrite HsProofs ConnProofs SpecSession FlagProofs PropSession Toy ToyRun PropSend PropWrite
  SpecRead FrameProofs RecvProofs ServeProofs PropRead SpecHandshake SpecComplete CompleteProofs ToyServer PropComplete SpecSizes PropSizes SpecOffers PropOffers SpecFragments.
Import ListNotations.
Local Open Scope list_scope.

Ltac Zify.zify_post_hook ::= Z.div_mod_to_equations.

Lemma fragment_bounds m : 512 <= fragment_length m <= 4096.
Proof. destruct m; cbn; lia. Qed.

(** ** Reading *)

(** With a read buffer of the size that the documentation quotes, everything a server sends that keeps to the length is
    read. *)
Theorem C66_read : forall C L c m srv ops, crypto_ok C -> established C L c -> steady c ->
  quoted_size m <= room c ->
  incoming c = server_wire C (read_key c) (read_iv c) 0 srv -> Forall (short_record m) srv -> (N.of_nat (length srv) <= u64_max)%N ->
  Forall (fun o => exists dst, o = OpRead dst /\ dst <> []) ops ->
  length (concat (data_of (map fst srv))) < length ops ->
  read_bytes (fst (run C ops c)) = concat (data_of (map fst srv)).
Proof.
  intros C L c m srv ops HC He Hs Hroom Hin Hl Hn Ho Hlen. apply (C14_complete C L c srv ops HC He Hs Hin); auto.
  eapply Forall_impl; [|exact Hl]. intros [[t b] pad] (Ht & Hb & Hp). split; [exact Ht|]. rewrite (ok_tag_len C HC).
  pose proof (fragment_bounds m). unfold quoted_size in Hroom. lia.
Qed.

(** ** Writing *)

(** What the client sends keeps to the length if the write buffer is small enough, the handshake included.  The buffer alone
    decides: the length that was asked for does not matter.  Missing: larger buffers. *)
Theorem C66_write_partial : forall C V (p : provider V) cfg v rbuf wbuf rx tx c0 o c1 ops rs c m,
  crypto_ok C -> cn_new C rbuf wbuf rx tx = Ok c0 -> cn_open C p cfg v c0 = (o, c1) -> length (p_random p) = 32 ->
  133 <= length wbuf <= fragment_length m + 5 ->
  (o = Ok tt /\ run C ops c1 = (rs, c) \/ o <> Ok tt /\ c = c1) ->
  exists new, sent_log c = sent_log c0 ++ new /\ all_records (record_within C (fragment_length m) code_type) new.
Proof.
  intros C V p cfg v rbuf wbuf rx tx c0 o c1 ops rs c m HC Hn Ho Hr HL Hcase. pose proof (fragment_bounds m).
  destruct (cn_new_idle C _ _ _ _ _ Hn) as (Hid & _).
  destruct (open_records C V p cfg (length wbuf) v c0 o c1 HC Hid Ho) as (new1 & Hl1 & Hr1).
  assert (Hr1' : all_records (record_within C (fragment_length m) code_type) new1).
  { eapply all_records_weaken; [|exact Hr1]. intros b. apply record_within_weaken; [lia|auto]. }
  destruct Hcase as [[-> Hrun]|[_ ->]]; [|eauto].
  assert (He : established C (length wbuf) c1) by (exists V, p, cfg, v, rbuf, wbuf, rx, tx, c0; auto).
  destruct (run_records C _ c1 ops rs c HC He (proj1 HL) Hrun) as (new2 & Hl2 & Hr2).
  exists (new1 ++ new2). split; [now rewrite Hl2, Hl1, app_assoc|]. apply Forall_app. split; [exact Hr1'|].
  eapply all_records_weaken; [|exact Hr2]. intros b. apply record_within_weaken; [lia|]. unfold code_type. intros t mm H1. now right.
Qed.

(** With a larger buffer one [write] that is long enough sends a record beyond the length, whatever was agreed. *)
Theorem C66_write_refuted : forall C L c b r c' m, crypto_ok C -> established C L c -> fragment_length m + 133 < L ->
  transport_succeeds c -> L - 133 <= length b -> step C (OpWrite b) c = (r, c') ->
  exists d, fragment_length m < length d /\ prefix d b /\
    In (TxWrite (rfc_record C (write_key c) (write_iv c) 0 ty_data d 0) (length d + 22)) (sent_log c').
Proof.
  intros C L c0 b r c' m HC He HL Htx Hb Hst. destruct (established_facts C L c0 HC He) as (_ & H0 & Hop & _).
  pose proof (established_sending C L c0 HC ltac:(lia) He) as Hs.
  destruct (write_exact C L c0 b r c' None HC Hs Hop Hst) as (Hlen & Hcase). cbn [content length] in *. rewrite Nat.sub_0_r in *.
  replace (Nat.min (length b) (L - 133)) with (L - 133) in * by lia.
  destruct Hcase as [(Hlt & _)|(_ & Hp & k & fl & Hlog & Hk & Hr)]; [lia|].
  destruct Hr as [(-> & -> & _)|(_ & [[_ Hn]|[_ Hbig]])]; [|contradiction|rewrite H0 in Hbig; unfold u64_max in Hbig; lia].
  exists (firstn (L - 133) b). split; [rewrite firstn_length; lia|]. split; [exists (skipn (L - 133) b); symmetry; apply firstn_skipn|].
  unfold sent_log. unfold log_of in Hlog. rewrite Hlog. apply in_or_app. right. left.
  unfold SendProofs.data_record. rewrite H0. cbn [app]. fold (write_key c0) (write_iv c0). f_equal. rewrite rfc_record_length by exact HC. lia.
Qed.

(** ** The handshake *)

(** A flight that some read buffer can take, of a server that keeps to the length, is taken with the quoted size. *)
Theorem C66_open : forall V C (p : provider V) cfg wbuf tx v v0 m, crypto_ok C -> length (p_random p) = 32 ->
  hello_size cfg (length (c_pub C (p_secret p))) (hash_len C) <= length wbuf ->
  Forall (eq WrOk) (tx_wr tx) -> Forall (eq FlOk) (tx_fl tx) -> told p cfg v v0 ->
  exists hello,
    (forall rbuf rx c0, cn_new C rbuf wbuf rx tx = Ok c0 ->
       exists evs, sent_log (snd (cn_open C p cfg v c0)) = tx_log tx ++ goes_out (SpecHandshake.hello_record hello) ++ evs) /\
    forall R rbuf rx c0 x l rest v1 ms, cn_new C rbuf wbuf rx tx = Ok c0 -> chunked rx ->
      quoted_size m <= length rbuf ->
      stream rx = flight_wire C x l ++ rest -> x_hello x = hello -> followable C R x l -> short_flight m x l ->
      secrets_ok C (option_map fst (cfg_psk cfg)) (p_secret p) x -> finishes C x ->
      (p_has_verifier p = true -> accepts_all p (x_hellos x) (x_msgs x) v0 v1) ->
      signer_fits C p ->
      answer C p (x_client x) (x_hellos x ++ raw (x_msgs x)) (answered x) ms ->
      Forall (fun m => length m + 22 <= length wbuf) ms ->
      exists c, cn_open C p cfg v c0 = (Ok tt, c) /\ incoming c = rest /\ steady c /\ room c = length rbuf.
Proof.
  intros V C p cfg wbuf tx v v0 m HC Hr Hs H1 H2 Ht. pose proof (fragment_bounds m) as Hm.
  destruct (handshake_succeeds C p cfg wbuf tx v v0 HC Hr Hs (conj H1 H2) Ht) as (hello & Hsent & Hgo). exists hello. split; [exact Hsent|].
  intros R rbuf rx c0 x l rest v1 ms Hnew Hch Hroom Hstr Hh Hfol [Hsh Hl] Hsec Hfin Hacc Hsf Hans Hlen. unfold quoted_size in Hroom.
  assert (Hfol' : followable C (length rbuf) x l).
  { destruct Hfol as (A1 & A2 & A3 & A4 & A5 & A6 & A7 & A8 & A9).
    split; [exact A1|]. split; [exact A2|]. split; [exact A3|]. split; [lia|]. split; [exact A5|]. split; [exact A6|]. split; [exact A7|]. split; [|exact A9].
    rewrite Forall_forall in *. intros q Hq. specialize (Hl q Hq). specialize (A8 q Hq). destruct q as [|ms' pad]; cbn [part_fits] in *; [lia|].
    rewrite (ok_tag_len C HC) in *. lia. }
  destruct (Hgo rbuf rx c0 x rest v1 ms Hnew Hch Hh) as (c & Ho & _ & Hin & Hst & Hrm & _); auto.
  { rewrite Hstr. now apply followable_whole. }
  { now apply signer_signature_fits. }
  exists c. auto.
Qed.

Lemma in_concat_length (b : bytes) l : In b l -> length b <= length (concat l).
Proof. induction l as [|x l IH]; [contradiction|]. cbn [concat]. rewrite app_length. intros [<-|Hb]; [lia|]. specialize (IH Hb). lia. Qed.

Lemma carried_whole C key iv n rs ms : carried C key iv n rs ms -> forall b, In b ms -> exists h f c, In (h, f) rs /\ brings C key iv h f c /\ length b <= length c.
Proof.
  induction 1 as [n|n h f rs ms Hf Hh _ IH|n h m junk rs ms Hf Hh _ IH|n h f inner ms1 rs ms Hf Hh Ho Hu _ IH]; intros b Hb; [contradiction|..].
  - destruct (IH b Hb) as (h' & f' & c & Hin & Hl). exists h', f', c. split; [now right|exact Hl].
  - destruct Hb as [<-|Hb]; [exists h, (m ++ junk), (m ++ junk); split; [now left|split; [now left|rewrite app_length; lia]]|].
    destruct (IH b Hb) as (h' & f' & c & Hin & Hl). exists h', f', c. split; [now right|exact Hl].
  - apply in_app_or in Hb as [Hb|Hb].
    + exists h, f, (concat ms1). split; [now left|]. split; [right; split; [exact Hh|]; exists n, inner, ty_handshake; auto|now apply in_concat_length].
    + destruct (IH b Hb) as (h' & f' & c & Hin & Hl). exists h', f', c. split; [now right|exact Hl].
Qed.

(** But such a server can have no handshake message, in particular no Certificate, that is longer than the length, for any
    buffers: when [open] succeeds, the records of the server's flight bring every message whole, so if they keep to the length, then
    every message does.  (RFC 8446 section 5.1: "handshake messages MAY be ... fragmented across several records".) *)
Theorem C66_messages : forall V C (p : provider V) cfg rbuf wbuf rx tx v c0 c m, crypto_ok C -> length (p_random p) = 32 ->
  Forall (eq WrOk) (tx_wr tx) -> Forall (eq FlOk) (tx_fl tx) -> chunked rx ->
  cn_new C rbuf wbuf rx tx = Ok c0 -> cn_open C p cfg v c0 = (Ok tt, c) ->
  exists x rest rs, whole_flight C (length rbuf) (stream rx) x rest /\ stream rx = wire_of rs ++ rest /\
    (keeps_length C (x_skey x) (x_siv x) m rs -> Forall (fun b => length b <= fragment_length m) (x_shello x :: map fst (x_msgs x))).
Proof.
  intros V C p cfg rbuf wbuf rx tx v c0 c m HC Hrnd H1 H2 Hch Hnew Ho.
  destruct (C51_exactly V C p cfg wbuf tx v HC Hrnd H1 H2) as (hello & _ & Hex). specialize (Hex rbuf rx c0 Hnew Hch).
  rewrite Ho in Hex. destruct (proj1 Hex eq_refl) as (_ & x & rest & v0 & v1 & ms & _ & _ & Hw & _).
  pose proof Hw as (h0 & junk & rs & r & ms1 & ms2 & Hstr & Hfr & Hh0 & _ & _ & Hms & Hc1 & Hc2 & _).
  exists x, rest, ((h0, x_shello x ++ junk) :: rs ++ [r]). split; [exact Hw|]. split; [exact Hstr|]. intros Hk.
  constructor.
  - specialize (Hk h0 (x_shello x ++ junk) (x_shello x ++ junk) (or_introl eq_refl) (or_introl (conj Hh0 eq_refl))). rewrite app_length in Hk. lia.
  - rewrite Forall_forall. intros b Hb. rewrite Hms, map_app in Hb. apply in_app_or in Hb.
    assert (G : exists h f cc, In (h, f) (rs ++ [r]) /\ brings C (x_skey x) (x_siv x) h f cc /\ length b <= length cc).
    { destruct Hb as [Hb|Hb]; [destruct (carried_whole _ _ _ _ _ _ Hc1 b Hb) as (h & f & cc & A & B)|destruct (carried_whole _ _ _ _ _ _ Hc2 b Hb) as (h & f & cc & A & B)];
      exists h, f, cc; (split; [apply in_or_app; auto|exact B]). }
    destruct G as (h & f & cc & A & B & D). specialize (Hk h f cc (or_intror A) B). lia.
Qed.

(** ** Concrete cases *)

(** C66_read, C66_write_partial: a connection with a read buffer of the quoted size and a write buffer of 300 bytes; the records that the
    toy server sends keep to 512 bytes. *)
Example C66_case : exists c0 c, cn_new toy (zeros (quoted_size MFL_Bits9)) (zeros 300) full_rx silent = Ok c0 /\
  cn_open toy full_provider small_config 0 c0 = (Ok tt, c) /\ established toy 300 c /\ room c = quoted_size MFL_Bits9 /\ quoted_size MFL_Bits9 = 800 /\
  133 <= length (zeros 300) <= fragment_length MFL_Bits9 + 5 /\
  short_record MFL_Bits9 (ty_data, repeat x41 512, 256).
Proof.
  destruct full_hypotheses as ((evs & Hs) & Hstr & Hsz & Ht & Hsec & Hfin & Hacc & Hsf & Hans & Hlen & _).
  destruct (C66_open nat toy full_provider small_config (zeros 300) silent 0 1 MFL_Bits9 toy_ok eq_refl) as (hello & Hpin & Hgo); auto.
  { constructor. } { constructor. }
  assert (Eh : x_hello full_exchange = hello).
  { destruct (Hpin _ _ _ full_start_new) as [evs' E]. rewrite E in Hs. exact (goes_out_inj _ _ _ _ (eq_sym Hs)). }
  destruct (proj2 (proj2 (C63_overhead_refuted toy (zeros (quoted_size MFL_Bits9)) (zeros 300) full_rx silent))) as [c0 Hnew].
  { rewrite zeros_length. lia. }
  destruct (Hgo 400 (zeros (quoted_size MFL_Bits9)) full_rx c0 full_exchange full_parts [x17; x03] 3 full_answer Hnew) as (c & Ho & _ & _ & Hrm); auto.
  - unfold chunked, full_rx. constructor; [|constructor; [|constructor; [|constructor]]]; eexists; (split; [reflexivity|discriminate]).
  - exact full_followable.
  - split; [apply Nat.leb_le; vm_compute; reflexivity|].
    repeat (constructor; [first [exact I|split; apply Nat.leb_le; vm_compute; reflexivity]|]). constructor.
  - exists c0, c. split; [exact Hnew|]. split; [exact Ho|]. split.
    { exists nat, full_provider, small_config, 0, (zeros (quoted_size MFL_Bits9)), (zeros 300), full_rx, silent, c0. split; [reflexivity|]. split; [exact Hnew|]. split; [apply zeros_length|exact Ho]. }
    split; [rewrite Hrm; apply zeros_length|]. split; [reflexivity|]. split; [rewrite zeros_length; cbn; lia|].
    split; [now left|]. rewrite repeat_length. cbn. lia.
Qed.

(** C66_write_refuted: a client that asks for 512 bytes, with a write buffer of 700. *)
Example C66_write_case : exists c, established toy 700 c /\ transport_succeeds c /\ cfg_max_frag alpn_config = Some MFL_Bits9 /\
  fragment_length MFL_Bits9 + 133 < 700.
Proof.
  destruct C65_case as (_ & _ & Hsz & Hh & Ht & Hu & Hso & (dhe & Hdh) & _).
  destruct full_followable as (_ & _ & Hf2 & Hlr & _).
  assert (Hl : length (zeros 400) = 400) by apply zeros_length. assert (Hw : length (zeros 700) = 700) by apply zeros_length.
  destruct (C65_any nat toy full_provider alpn_config (zeros 700) (zeros 400) silent 0 1 (x_shello full_exchange) (x_suite full_exchange) (x_items full_exchange)
    (x_group full_exchange) (x_share full_exchange) dhe []) as (x & _ & _ & _ & _ & Hgo); auto; try lia.
  - exact toy_ok.
  - constructor.
  - constructor.
  - split; [apply Forall_nil|unfold fits, items_wire; cbn; lia].
  - split; [intros t b []|cbn; lia].
  - rewrite Hl. change (length (ee_message [])) with 6. change (hash_len toy) with 32. lia.
  - destruct (proj2 (proj2 (C63_overhead_refuted toy (zeros 400) (zeros 700) [RxData (flight_wire toy x [P_messages (x_msgs x) 0])] silent))) as [c0 Hnew]; [lia|].
    destruct (Hgo _ c0 Hnew) as (c & evs & Ho & Hts & _).
    { constructor; [|constructor]. eexists. split; [reflexivity|discriminate]. }
    { unfold stream. cbn [map concat]. apply app_nil_r. }
    exists c. split; [|split; [exact Hts|split; [reflexivity|apply Nat.ltb_lt; vm_compute; reflexivity]]].
    exists nat, full_provider, alpn_config, 0, (zeros 400), (zeros 700). eexists _, silent, c0.
    split; [reflexivity|]. split; [exact Hnew|]. split; [exact Hw|exact Ho].
Qed.

Print Assumptions C66_read.
Print Assumptions C66_open.
Print Assumptions C66_messages.
Print Assumptions C66_write_partial.
Print Assumptions C66_write_refuted.
