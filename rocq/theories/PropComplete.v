(** * C44: a handshake that must succeed *)
From Coq Require Import String List NArith Arith Bool Lia ZArith.
From Coq.Strings Require Import Byte.
From Coq Require Import ZifyBool ZifyNat ZifyN.
From Verif Require Import Base ParseBuffer Buffer Codes Extensions Crypto KeySchedule Config Handshake Record WriteBuffer
  Transport RecordReader ReadBuffer Connection Api BaseProofs ParseProofs SpecWire SpecCodes SpecMessages WireProofs SpecKeys
  SpecRecord RecordProofs SpecRead ReadProofs SpecSend SendProofs SpecHello PropHello HsProofs ConnProofs SpecHandshake SpecOpen ServeProofs
  PropSend PropWrite PropRead LocalProofs AcceptProofs PropKeys FlightProofs SpecComplete MessageProofs OpenProofs CompleteProofs Toy ToyRun ToyServer.
Import ListNotations.
Local Open Scope list_scope.

Lemma signer_signature_fits {V} C (p : provider V) tr req : signer_fits C p -> signature_fits C p tr req.
Proof. intros [H|(Hd & Hl & Hs)]; destruct req as [ctx|]; cbn; auto. right. split; [exact Hd|]. split; [exact Hl|]. intros. eapply Hs; eauto. Qed.

(** ** Messages *)

(** The client decodes the first message of [w], its bytes [b] going into the transcript,
    exactly if [b] is a message it understands. *)
Theorem C44_message : forall C tr w tr',
  (exists h q, read_server_handshake C tr (pb_new w) = (Ok (h, tr'), q)) <->
  exists b junk m, w = b ++ junk /\ tr' = tr ++ b /\ understood C b m.
Proof.
  intros C tr w tr'. split.
  - intros (h & q & H). rewrite pb_new_at in H. apply read_message_inv in H as (b & y & h0 & -> & _ & Hp & _ & ->).
    destruct (parses_understood C b h0 Hp) as (m & Hm & _). eauto 6.
  - intros (b & junk & m & -> & -> & Hm). destruct (understood_parses C b m Hm) as (h & Hp & _).
    change (pb_new (b ++ junk)) with (at_pos [] b junk). rewrite (read_message C tr [] b junk h Hp). eauto.
Qed.

(** ** Records *)

Fixpoint parts_records (C : crypto) (key iv : bytes) (n : N) (l : list part) : list (bytes * bytes) :=
  match l with
  | [] => []
  | P_ccs :: l => ([x14; x03; x03; x00; x01], [x01]) :: parts_records C key iv n l
  | P_messages ms pad :: l =>
      let r := rfc_record C key iv n ty_handshake (raw ms) pad in
      (firstn 5 r, skipn 5 r) :: parts_records C key iv (n + 1) l
  end.

Lemma parts_wire_records C key iv : forall l n, wire_of (parts_records C key iv n l) = parts_wire C key iv n l.
Proof.
  induction l as [|[|ms pad] l IH]; intros n; [reflexivity| |]; cbn [parts_records parts_wire]; unfold wire_of in *; cbn [map concat fst snd].
  - now rewrite IH.
  - now rewrite IH, firstn_skipn.
Qed.

Lemma protected_cons h f l : protected_in ((h, f) :: l) = (protected_in [(h, f)] + protected_in l)%N.
Proof. exact (protected_in_app [(h, f)] l). Qed.

Lemma parts_records_app C key iv : crypto_ok C -> forall l l' n, parts_records C key iv n (l ++ l') =
  parts_records C key iv n l ++ parts_records C key iv (n + protected_in (parts_records C key iv n l)) l'.
Proof.
  intros HC. induction l as [|[|ms pad] l IH]; intros l' n; cbn [app parts_records].
  - cbn [protected_in filter length N.of_nat]. now rewrite N.add_0_r.
  - rewrite IH, (protected_cons _ _ (parts_records C key iv n l)). reflexivity.
  - rewrite IH. cbv zeta. destruct (rfc_record_parts C key iv n ty_handshake (raw ms) pad HC) as (f & E & _ & _).
    rewrite E. rewrite firstn_app_exact, skipn_app_exact by apply rfc_header_length.
    rewrite (protected_cons _ _ (parts_records C key iv (n + 1) l)).
    change (protected_in [(rfc_header (length (raw ms) + 1 + pad + 16), f)]) with 1%N. now rewrite N.add_assoc.
Qed.

Lemma parts_carried C key iv room : crypto_ok C -> forall l n, Forall (part_fits C room) l ->
  carried C key iv n (parts_records C key iv n l) (map fst (parts_msgs l)) /\
  Forall (fun r => length (snd r) <= room) (parts_records C key iv n l) /\
  (protected_in (parts_records C key iv n l) <= N.of_nat (length l))%N.
Proof.
  intros HC. induction l as [|[|ms pad] l IH]; intros n Hf; inversion Hf as [|? ? Hq Hl]; subst; cbn [parts_records].
  - split; [constructor|]. split; [constructor|]. cbn. lia.
  - destruct (IH n Hl) as (I1 & I2 & I3). split; [|split].
    + apply ca_ccs; [split; reflexivity|reflexivity|exact I1].
    + constructor; [exact Hq|exact I2].
    + unfold protected_in in *. cbn [filter fst] in *. change (Byte.eqb x14 ty_data) with false. cbn iota. cbn [length]. lia.
  - destruct (IH (n + 1)%N Hl) as (I1 & I2 & I3). destruct Hq as [Hq1 Hq2]. rewrite (ok_tag_len C HC) in *.
    destruct (rfc_record_parts C key iv n ty_handshake (raw ms) pad HC) as (f & E & Hlen & Ho).
    rewrite E. rewrite firstn_app_exact, skipn_app_exact by apply rfc_header_length. split; [|split].
    + change (map fst (parts_msgs (P_messages ms pad :: l))) with (map fst (ms ++ parts_msgs l)). rewrite map_app.
      eapply ca_sealed; [apply rfc_header_framed; [exact Hlen|exact Hq2]|reflexivity|exact Ho|apply unpad_inner; discriminate|exact I1].
    + constructor; [cbn [snd]; lia|exact I2].
    + unfold protected_in in *. cbn [filter fst] in *.
      change (match rfc_header (length (raw ms) + 1 + pad + 16) with [] => false | t :: _ => Byte.eqb t ty_data end) with true. cbn iota. cbn [length]. lia.
Qed.

Lemma plain_framed m : fits 2 m -> framed (uint 1 22 ++ uint 2 0x0303 ++ uint 2 (N.of_nat (length m))) m.
Proof.
  intros H. split; [now rewrite !app_length, !uint_length|]. rewrite app_assoc.
  rewrite skipn_app_exact by (now rewrite app_length, !uint_length). now rewrite be_val_uint_small.
Qed.

Lemma followable_whole C room x l rest : crypto_ok C -> followable C room x l -> whole_flight C room (flight_wire C x l ++ rest) x rest.
Proof.
  intros HC (Hu & Hsh & Hf2 & Hl0 & Hms & Hund & Hnf & Hfit & Hlen).
  destruct (exists_last (l := l)) as (l1 & q & ->).
  { intros ->. unfold parts_msgs in Hms. cbn in Hms. unfold x_msgs in Hms. destruct (x_before x); discriminate. }
  rewrite removelast_last in Hnf. unfold parts_msgs in Hms. rewrite map_app, concat_app in Hms. cbn [map concat] in Hms. rewrite app_nil_r in Hms.
  fold (parts_msgs l1) in Hms.
  set (key := x_skey x). set (iv := x_siv x).
  pose proof Hfit as Hfit'. apply Forall_app in Hfit' as [Hfit1 Hfitq].
  destruct (parts_carried C key iv room HC l1 0%N Hfit1) as (C1 & C2 & C3).
  destruct (parts_carried C key iv room HC [q] (protected_in (parts_records C key iv 0 l1)) Hfitq) as (D1 & D2 & D3).
  assert (Hone : exists r, parts_records C key iv (protected_in (parts_records C key iv 0 l1)) [q] = [r]) by (destruct q; cbn [parts_records]; eauto).
  destruct Hone as [r Hr]. rewrite Hr in *.
  exists (uint 1 22 ++ uint 2 0x0303 ++ uint 2 (N.of_nat (length (x_shello x)))), [], (parts_records C key iv 0 l1), r, (parts_msgs l1), (part_msgs q).
  rewrite app_nil_r. split; [|split; [|split; [|split; [|split; [|split; [|split; [|split; [|split; [|split; [|split]]]]]]]]]]; auto.
  - unfold flight_wire. fold key iv. rewrite <- parts_wire_records, parts_records_app, N.add_0_l, Hr by exact HC.
    unfold wire_of. cbn [map concat fst snd]. rewrite (vec_eq 2), <- !app_assoc. reflexivity.
  - now apply plain_framed.
  - unfold parts_msgs in D1. cbn [map concat] in D1. rewrite app_nil_r in D1. exact D1.
  - constructor; [exact Hl0|]. now apply Forall_app.
  - rewrite protected_in_app. rewrite app_length in Hlen. cbn [length] in *. lia.
Qed.

(** ** Handshakes *)

(** The ClientHello that a client sends depends only on its configuration, the random bytes and
    the secret.  A server that answers it with a flight the client can follow - a ServerHello
    with a share for the client's secret; messages the client understands, the last Finished
    confirming the others, however they are put into records; certificates and signatures the
    client's verifier accepts - makes [open] succeed, if the transport delivers the flight and
    does not fail and the write buffer is big enough for the client's messages.  The client then
    sent its answer, the rest of the stream is still there, and the keys of the session are those
    of RFC 8446. *)
Theorem C44_handshake : forall V C (p : provider V) cfg wbuf tx v v0, crypto_ok C -> length (p_random p) = 32 ->
  hello_size cfg (length (c_pub C (p_secret p))) (hash_len C) <= length wbuf ->
  Forall (eq WrOk) (tx_wr tx) -> Forall (eq FlOk) (tx_fl tx) -> told p cfg v v0 ->
  exists hello,
    (forall rbuf rx c0, cn_new C rbuf wbuf rx tx = Ok c0 ->
       exists evs, sent_log (snd (cn_open C p cfg v c0)) = tx_log tx ++ goes_out (SpecHandshake.hello_record hello) ++ evs) /\
    forall rbuf rx c0 x rest v1 ms, cn_new C rbuf wbuf rx tx = Ok c0 -> chunked rx ->
      x_hello x = hello -> whole_flight C (length rbuf) (stream rx) x rest ->
      secrets_ok C (option_map fst (cfg_psk cfg)) (p_secret p) x -> finishes C x ->
      (p_has_verifier p = true -> accepts_all p (x_hellos x) (x_msgs x) v0 v1) ->
      signer_fits C p ->
      answer C p (x_client x) (x_hellos x ++ raw (x_msgs x)) (answered x) ms ->
      Forall (fun m => length m + 22 <= length wbuf) ms ->
      exists c, cn_open C p cfg v c0 = (Ok tt, c) /\
        sent_log c = tx_log tx ++ goes_out (SpecHandshake.hello_record hello) ++ protected_flight C (x_ckey x) (x_civ x) 0 ms /\
        incoming c = rest /\ steady c /\ room c = length rbuf /\ transport_succeeds c /\
        session_keys C (option_map fst (cfg_psk cfg)) x "c ap traffic" (write_key c) (write_iv c) /\
        session_keys C (option_map fst (cfg_psk cfg)) x "s ap traffic" (read_key c) (read_iv c).
Proof.
  intros V C p cfg wbuf tx v v0 HC Hr Hs H1 H2 Ht. destruct (handshake_succeeds C p cfg wbuf tx v v0 HC Hr Hs (conj H1 H2) Ht) as (hello & Hsent & Hgo).
  exists hello. split; [exact Hsent|]. intros rbuf rx c0 x rest v1 ms Hnew Hch Hh Hfl Hsec Hfin Hacc Hsf Hans Hlen.
  exact (Hgo rbuf rx c0 x rest v1 ms Hnew Hch Hh Hfl Hsec Hfin Hacc (signer_signature_fits C p _ _ Hsf) Hans Hlen).
Qed.

Lemma goes_out_inj a b l1 l2 : goes_out (SpecHandshake.hello_record a) ++ l1 = goes_out (SpecHandshake.hello_record b) ++ l2 -> a = b.
Proof.
  intros H. apply (f_equal (fun l => match l with TxWrite b _ :: _ => skipn 5 b | _ => [] end)) in H. cbn [goes_out app] in H.
  assert (Hk : forall h, skipn 5 (SpecHandshake.hello_record h) = h).
  { intros h. unfold SpecHandshake.hello_record. rewrite (vec_eq 2), !app_assoc. apply skipn_app_exact. now rewrite !app_length, !uint_length. }
  now rewrite !Hk in H.
Qed.


(** And no other server does: given a transport that does not fail, [open] succeeds exactly if the
    ClientHello fits the write buffer, the verifier takes the name, and the bytes the server sends
    begin with such a flight - messages the client understands, secrets that exist, Finished
    messages that confirm what came before, certificates and signatures the verifier accepts - and
    the client can build its answer: it has a signature of the right size, if it needs one, and
    each of its messages fits the write buffer. *)
Theorem C51_exactly : forall V C (p : provider V) cfg wbuf tx v, crypto_ok C -> length (p_random p) = 32 ->
  Forall (eq WrOk) (tx_wr tx) -> Forall (eq FlOk) (tx_fl tx) ->
  exists hello,
    (forall rbuf rx c0 v0, cn_new C rbuf wbuf rx tx = Ok c0 -> told p cfg v v0 ->
       hello_size cfg (length (c_pub C (p_secret p))) (hash_len C) <= length wbuf ->
       exists evs, sent_log (snd (cn_open C p cfg v c0)) = tx_log tx ++ goes_out (SpecHandshake.hello_record hello) ++ evs) /\
    forall rbuf rx c0, cn_new C rbuf wbuf rx tx = Ok c0 -> chunked rx ->
      (fst (cn_open C p cfg v c0) = Ok tt <->
       hello_size cfg (length (c_pub C (p_secret p))) (hash_len C) <= length wbuf /\
       exists x rest v0 v1 ms, told p cfg v v0 /\ x_hello x = hello /\
         whole_flight C (length rbuf) (stream rx) x rest /\
         secrets_ok C (option_map fst (cfg_psk cfg)) (p_secret p) x /\ finishes C x /\
         (p_has_verifier p = true -> accepts_all p (x_hellos x) (x_msgs x) v0 v1) /\
         signature_fits C p (x_hellos x ++ raw (x_msgs x)) (answered x) /\
         answer C p (x_client x) (x_hellos x ++ raw (x_msgs x)) (answered x) ms /\
         Forall (fun m => length m + 22 <= length wbuf) ms).
Proof.
  intros V C p cfg wbuf tx v HC Hr H1 H2.
  assert (Hback : forall hello,
    (forall rbuf rx c0 v0, cn_new C rbuf wbuf rx tx = Ok c0 -> told p cfg v v0 ->
       hello_size cfg (length (c_pub C (p_secret p))) (hash_len C) <= length wbuf ->
       exists evs, sent_log (snd (cn_open C p cfg v c0)) = tx_log tx ++ goes_out (SpecHandshake.hello_record hello) ++ evs) ->
    forall rbuf rx c0, cn_new C rbuf wbuf rx tx = Ok c0 -> fst (cn_open C p cfg v c0) = Ok tt ->
       hello_size cfg (length (c_pub C (p_secret p))) (hash_len C) <= length wbuf /\
       exists x rest v0 v1 ms, told p cfg v v0 /\ x_hello x = hello /\
         whole_flight C (length rbuf) (stream rx) x rest /\
         secrets_ok C (option_map fst (cfg_psk cfg)) (p_secret p) x /\ finishes C x /\
         (p_has_verifier p = true -> accepts_all p (x_hellos x) (x_msgs x) v0 v1) /\
         signature_fits C p (x_hellos x ++ raw (x_msgs x)) (answered x) /\
         answer C p (x_client x) (x_hellos x ++ raw (x_msgs x)) (answered x) ms /\
         Forall (fun m => length m + 22 <= length wbuf) ms).
  { intros hello Hsent rbuf rx c0 Hnew Ho. destruct (cn_open C p cfg v c0) as [o c] eqn:Eo. cbn [fst] in Ho. subst o.
    pose proof (open_hello_fits C p cfg v rbuf wbuf rx tx c0 c HC Hr Hnew Eo) as Hsz. split; [exact Hsz|].
    destruct (handshake_whole C p cfg rbuf wbuf rx tx c0 v c HC Hnew Eo) as (x & v0 & v1 & ms & G1 & G2 & G3 & G4 & G5 & G6 & G7 & _ & _ & G8 & G9).
    exists x, (incoming c), v0, v1, ms. split; [exact G1|]. split; [|auto 10].
    destruct (Hsent rbuf rx c0 v0 Hnew G1 Hsz) as (evs & Hevs). rewrite Eo in Hevs. cbn [snd] in Hevs. rewrite G7 in Hevs.
    apply app_inv_head in Hevs. exact (goes_out_inj _ _ _ _ Hevs). }
  destruct (le_lt_dec (hello_size cfg (length (c_pub C (p_secret p))) (hash_len C)) (length wbuf)) as [Hs|Hs].
  2:{ exists []. split; [intros; lia|]. intros rbuf rx c0 Hnew Hch. split; [|intros [Hs' _]; lia]. apply Hback; [intros; lia|exact Hnew]. }
  assert (Htold : (exists v0, told p cfg v v0) \/ forall v0, ~ told p cfg v v0).
  { unfold told. destruct (cfg_server_name cfg) as [n|]; [|left; eauto]. destruct (p_has_verifier p); [|left; eauto].
    destruct (p_set_hostname p n v) as [[[]|e|y| |] v0]; [left; eauto|..]; right; intros v1 E; discriminate. }
  destruct Htold as [(v0 & Ht)|Hno].
  2:{ exists []. split; [intros rbuf rx c0 v0 _ Ht; destruct (Hno v0 Ht)|]. intros rbuf rx c0 Hnew Hch.
      split; [|intros (_ & x & rest & v0 & v1 & ms & Ht & _); destruct (Hno v0 Ht)].
      apply Hback; [intros ? ? ? v0 _ Ht; destruct (Hno v0 Ht)|exact Hnew]. }
  destruct (handshake_succeeds C p cfg wbuf tx v v0 HC Hr Hs (conj H1 H2) Ht) as (hello & Hsent & Hgo).
  exists hello. split; [intros rbuf rx c0 _ Hnew _ _; exact (Hsent rbuf rx c0 Hnew)|]. intros rbuf rx c0 Hnew Hch. split.
  - apply Hback; [intros rb x c1 _ Hn _ _; exact (Hsent rb x c1 Hn)|exact Hnew].
  - intros (_ & x & rest & v0' & v1 & ms & Ht' & Hh & Hfl & Hsec & Hfin & Hacc & Hsf & Hans & Hlen).
    assert (v0' = v0) by (unfold told in Ht, Ht'; destruct (cfg_server_name cfg), (p_has_verifier p); congruence). subst v0'.
    destruct (Hgo rbuf rx c0 x rest v1 ms Hnew Hch Hh Hfl Hsec Hfin Hacc Hsf Hans Hlen) as (c & -> & _). reflexivity.
Qed.

(** A flight as a server that follows the RFC puts it on the wire is such a flight. *)
Theorem C44_server_flight : forall C room x l rest, crypto_ok C -> followable C room x l ->
  whole_flight C room (flight_wire C x l ++ rest) x rest.
Proof. exact followable_whole. Qed.

(** There is such a server for every client: whatever ServerHello with a share that goes with the
    client's secret, whatever messages [before] the Finished, the secrets and the Finished exist. *)
Theorem C44_server_exists : forall C psk secret hello shello suite items group share dhe before, crypto_ok C ->
  c_dh C secret share = Some dhe -> ~ (exists m, In m before /\ is_finished (snd m)) ->
  exists x, x_hello x = hello /\ x_shello x = shello /\ x_suite x = suite /\ x_items x = items /\ x_group x = group /\
    x_share x = share /\ x_before x = before /\ x_finished x = fin_message (x_verify x) /\ length (x_verify x) = hash_len C /\
    x_after x = [] /\ secrets_ok C psk secret x /\ finishes C x.
Proof.
  intros C psk secret hello shello suite items group share dhe before HC Hd Hnf.
  destruct (C08_key_schedule C psk dhe (hello ++ shello) [] HC) as (k1 & _ & _ & _ & _ & Hphase).
  destruct (Hphase (mk_keysched (ks_shared k1) (ks_w k1) (mk_rks (r_state (ks_r k1)) (hello ++ shello))) eq_refl eq_refl) as (hs & k2 & Hhs & _ & Hw & Hr & _).
  destruct Hw as (client & ckey & civ & D1 & D2 & D3 & _). destruct Hr as (server & skey & siv & F1 & F2 & F3 & F4 & _).
  destruct (C11_server_finished C (ks_r k2) server (hello ++ shello ++ raw before) [] HC F4) as (vd & Hvd & _).
  exists (mk_exchange hello shello suite items group share before (fin_message vd) vd [] dhe client server ckey civ skey siv).
  repeat (split; [reflexivity|]). cbn [x_verify x_after].
  split. { revert Hvd. unfold rfc_verify_data. destruct (rfc_expand_label C server _ _ _); [|discriminate]. intros E. injection E as <-. apply (ok_hmac_len C HC). }
  split; [reflexivity|]. split.
  - split; [exact Hd|]. exists hs. auto 10.
  - split; [intros (m & [] & _)|]. intros pre b v post E. unfold x_msgs in E. cbn [x_before x_finished x_verify x_after] in E.
    assert (Epost : pre = before /\ v = vd).
    { destruct post as [|z post _] using rev_ind.
      - apply app_inj_tail in E as [E1 E2]. injection E2 as _ E2. auto.
      - exfalso. rewrite app_comm_cons, app_assoc in E. apply app_inj_tail in E as [-> _]. apply Hnf. exists (b, M_Finished v).
        split; [apply in_or_app; right; now left|exact I]. }
    destruct Epost as [-> ->]. unfold x_hellos. cbn [x_hello x_shello x_server]. now rewrite <- app_assoc.
Qed.

(** ** A whole session *)

Lemma session_keys_unique C psk x label k1 i1 k2 i2 : session_keys C psk x label k1 i1 -> session_keys C psk x label k2 i2 -> k1 = k2 /\ i1 = i2.
Proof.
  intros (m1 & s1 & A1 & A2 & A3 & A4) (m2 & s2 & B1 & B2 & B3 & B4).
  assert (m2 = m1) by congruence. subst m2. assert (s2 = s1) by congruence. subst s2. split; congruence.
Qed.

(** Such a server, and then application data and tickets [srv] protected with the keys of the
    session: the client's [open] succeeds, and enough reads return exactly the data sent.  And
    whatever the application writes, the server that opens the records with the keys of the
    session gets it. *)
Theorem C44_session : forall V C (p : provider V) cfg wbuf tx v v0, crypto_ok C -> length (p_random p) = 32 ->
  hello_size cfg (length (c_pub C (p_secret p))) (hash_len C) <= length wbuf ->
  Forall (eq WrOk) (tx_wr tx) -> Forall (eq FlOk) (tx_fl tx) -> told p cfg v v0 ->
  exists hello,
    (forall rbuf rx c0, cn_new C rbuf wbuf rx tx = Ok c0 ->
       exists evs, sent_log (snd (cn_open C p cfg v c0)) = tx_log tx ++ goes_out (SpecHandshake.hello_record hello) ++ evs) /\
    forall rbuf rx c0 x l v1 ms srv ckey civ skey siv,
    cn_new C rbuf wbuf rx tx = Ok c0 -> chunked rx ->
    stream rx = flight_wire C x l ++ server_wire C skey siv 0 srv ->
    x_hello x = hello -> followable C (length rbuf) x l ->
    secrets_ok C (option_map fst (cfg_psk cfg)) (p_secret p) x -> finishes C x ->
    (p_has_verifier p = true -> accepts_all p (x_hellos x) (x_msgs x) v0 v1) ->
    signer_fits C p ->
    answer C p (x_client x) (x_hellos x ++ raw (x_msgs x)) (answered x) ms ->
    Forall (fun m => length m + 22 <= length wbuf) ms ->
    session_keys C (option_map fst (cfg_psk cfg)) x "c ap traffic" ckey civ ->
    session_keys C (option_map fst (cfg_psk cfg)) x "s ap traffic" skey siv ->
    Forall (served C (length rbuf)) srv -> (N.of_nat (length srv) <= u64_max)%N ->
    exists c, cn_open C p cfg v c0 = (Ok tt, c) /\
      (forall ops, Forall (fun o => exists dst, o = OpRead dst /\ dst <> []) ops ->
         length (concat (data_of (map fst srv))) < length ops ->
         read_bytes (fst (run C ops c)) = concat (data_of (map fst srv))) /\
      (forall lim ops rs c', 133 <= length wbuf <= 133 + lim -> (N.of_nat lim < 65519)%N ->
         no_close ops -> (N.of_nat (length ops) <= u64_max)%N -> run C ops c = (rs, c') ->
         exists new ds rest, sent_log c' = sent_log c ++ new /\
           peer_read C lim ckey civ 0 (wire new) = (ds, Pending []) /\
           Forall (fun d => fst d = ty_data) ds /\ concat (map snd ds) ++ rest = accepted rs /\
           (forall rs1 r, rs = rs1 ++ [(OpFlush, r)] -> rest = [])).
Proof.
  intros V C p cfg wbuf tx v v0 HC Hr Hs H1 H2 Ht.
  destruct (handshake_succeeds C p cfg wbuf tx v v0 HC Hr Hs (conj H1 H2) Ht) as (hello & Hsent & Hgo). exists hello. split; [exact Hsent|].
  intros rbuf rx c0 x l v1 ms srv ckey civ skey siv Hnew Hch Hstr Hh Hfol Hsec Hfin Hacc Hsf Hans Hlen Hck Hsk Hsrv Hn.
  destruct (Hgo rbuf rx c0 x (server_wire C skey siv 0 srv) v1 ms Hnew Hch Hh) as (c & Ho & _ & Hin & Hst & Hrm & Htx & Hkw & Hkr); auto.
  { rewrite Hstr. now apply followable_whole. }
  { now apply signer_signature_fits. }
  destruct (session_keys_unique _ _ _ _ _ _ _ _ Hkw Hck) as [Ek Ei]. destruct (session_keys_unique _ _ _ _ _ _ _ _ Hkr Hsk) as [Fk Fi].
  assert (He : established C (length wbuf) c) by (exists V, p, cfg, v, rbuf, wbuf, rx, tx, c0; auto).
  exists c. split; [exact Ho|]. split.
  - intros ops Hops Hl. apply (C14_complete C (length wbuf) c srv ops HC He Hst); auto; [now rewrite Fk, Fi|now rewrite Hrm].
  - intros lim ops rs c' HL Hlim Hnc Hcnt Hrun.
    destruct (C13_peer_gets_what_was_accepted C (length wbuf) lim c ops rs c' HC He HL Hlim Htx Hnc Hcnt Hrun) as (new & ds & rest & G1 & G2 & G3 & G4 & _ & G6 & _).
    rewrite Ek, Ei in G2. exists new, ds, rest. auto 8.
Qed.

(** ** Concrete cases *)

(** The handshake of ToyServer.v, as an exchange: change_cipher_spec; EncryptedExtensions and
    CertificateRequest in one record; Certificate, CertificateVerify and Finished in another. *)
Definition full_items : list ext_item := Eval vm_compute in
  [(43%N, uint 2 0x0304); (51%N, uint 2 0x0017 ++ vec 2 (c_pub toy srv_secret))].
Definition full_before : list (bytes * smsg) := Eval vm_compute in
  [(empty_ee, M_EncryptedExtensions []); (full_request, M_CertificateRequest [x07; x08] [(13%N, vec 2 (uint 2 0x0403))]);
   (full_cert, M_Certificate [] (vec 3 [xd1; xd2; xd3] ++ vec 2 []) [[xd1; xd2; xd3]]);
   (full_cv, M_CertificateVerify 0x0403 [x51; x52])].
Definition full_secret (label : string) : bytes := some (rfc_derive_secret toy (some (rfc_handshake toy None srv_dhe)) label full_hellos).
Definition full_exchange : exchange := Eval vm_compute in
  mk_exchange plain_hello srv_hello 0x1301 full_items 0x0017 (c_pub toy srv_secret) full_before full_finished (skipn 4 full_finished) []
    srv_dhe (full_secret "c hs traffic") (full_secret "s hs traffic")
    (some (rfc_key toy (full_secret "c hs traffic"))) (some (rfc_iv toy (full_secret "c hs traffic")))
    (some (rfc_key toy (full_secret "s hs traffic"))) (some (rfc_iv toy (full_secret "s hs traffic"))).
Definition full_parts : list part :=
  [P_ccs; P_messages (firstn 2 (x_msgs full_exchange)) 0; P_messages (skipn 2 (x_msgs full_exchange)) 0].

Lemma full_understood : understood toy (x_shello full_exchange) (M_ServerHello (x_suite full_exchange) (x_items full_exchange)) /\
  Forall (fun m => understood toy (fst m) (snd m) /\ in_flight (snd m)) (x_msgs full_exchange).
Proof.
  assert (Hb : forall l : list ext_item, forallb (fun i => (fst i <? 65536)%N && (N.of_nat (length (snd i)) <? 65536)%N) l = true ->
    (N.of_nat (length (items_wire l)) < 65536)%N -> block_ok l).
  { intros l Hl Hn. split; [|exact Hn]. apply Forall_forall. intros i Hi. rewrite forallb_forall in Hl. apply Hl in Hi.
    apply andb_prop in Hi as [A B]. apply N.ltb_lt in A. apply N.ltb_lt in B. split; [exact A|exact B]. }
  split.
  - split.
    + exists (firstn 3 (skipn 1 srv_hello)), (skipn 4 srv_hello). split; [reflexivity|]. split; [|reflexivity].
      exists 0x0303%N, (repeat x09 32), [], 0%N. split; [|split; [apply Hb; reflexivity|reflexivity]].
      repeat split. cbn. auto 10.
    + split; [|cbn; lia]. intros t b Hin. cbn in Hin. destruct Hin as [E|[E|[]]]; apply pair_equal_spec in E as [<- <-].
      * split; [cbn; auto 10|cbn; lia].
      * split; [cbn; auto 10|]. exists 0x0017%N, (c_pub toy srv_secret), []. split; [reflexivity|]. split; [cbn; auto 10|reflexivity].
  - constructor; [|constructor; [|constructor; [|constructor; [|constructor; [|constructor]]]]].
    + split; [|exact I]. split.
      * exists [x00; x00; x02], [x00; x00]. split; [reflexivity|]. split; [|reflexivity]. split; [apply Hb; reflexivity|reflexivity].
      * split; [intros t b []|cbn; lia].
    + split; [|exact I]. split.
      * exists (firstn 3 (skipn 1 full_request)), (skipn 4 full_request). split; [reflexivity|]. split; [|reflexivity].
        split; [reflexivity|]. split; [apply Hb; reflexivity|reflexivity].
      * split; [|cbn; lia]. intros t b Hin. cbn in Hin. destruct Hin as [E|[]]; apply pair_equal_spec in E as [<- <-].
        split; [cbn; auto 10|]. exists [0x0403%N], []. split; [reflexivity|]. split; [constructor; [cbn; auto 10|constructor]|cbn; lia].
    + split; [|exact I]. split.
      * exists (firstn 3 (skipn 1 full_cert)), (skipn 4 full_cert). split; [reflexivity|]. split; [|reflexivity].
        exists [([xd1; xd2; xd3], [])]. split; [reflexivity|]. split; [reflexivity|]. split; [|auto].
        constructor; [split; [reflexivity|apply Hb; reflexivity]|constructor].
      * exists [([xd1; xd2; xd3], [])]. split; [reflexivity|]. split; [|cbn; lia].
        constructor; [split; [reflexivity|split; [apply Hb; reflexivity|split; [intros t b []|cbn; lia]]]|constructor].
    + split; [|exact I]. split; [|exact I]. exists (firstn 3 (skipn 1 full_cv)), (skipn 4 full_cv). split; [reflexivity|]. split; [|reflexivity].
      split; [cbn; auto 10|split; reflexivity].
    + split; [|exact I]. split; [|exact I]. exists (firstn 3 (skipn 1 full_finished)), (skipn 4 full_finished). repeat split.
Qed.

Example full_followable : followable toy 400 full_exchange full_parts.
Proof.
  destruct full_understood as [H1 H2]. split; [exact H1|]. split.
  { exists (firstn 1 full_items), [], []. split; [reflexivity|]. split; [|split].
    - constructor; [discriminate|constructor].
    - cbn. auto 10.
    - reflexivity. }
  split; [reflexivity|]. split; [vm_compute; lia|]. split; [reflexivity|]. split; [exact H2|]. split.
  { intros (m & Hin & Hf). cbn in Hin. destruct Hin as [<-|[<-|[]]]; exact Hf. }
  split; [|reflexivity]. repeat constructor; vm_compute; lia || reflexivity.
Qed.

Definition full_answer : list bytes := Eval vm_compute in
  let tr := x_hellos full_exchange ++ raw (x_msgs full_exchange) in
  let cert := cert_message [x07; x08] [[xc1; xc2]] in
  let cv := cv_message 0x0403 (firstn 6 (t_hash (client_signs toy (tr ++ cert)))) in
  [cert; cv; fin_message (some (rfc_verify_data toy (x_client full_exchange) (tr ++ cert ++ cv)))].

Example full_hypotheses :
  (exists evs, sent_log (snd (cn_open toy full_provider small_config 0 full_start)) =
     [] ++ goes_out (SpecHandshake.hello_record (x_hello full_exchange)) ++ evs) /\
  stream full_rx = flight_wire toy full_exchange full_parts ++ [x17; x03] /\
  hello_size small_config (length (c_pub toy (p_secret full_provider))) (hash_len toy) <= 300 /\
  told full_provider small_config 0 1 /\
  secrets_ok toy None (p_secret full_provider) full_exchange /\ finishes toy full_exchange /\
  accepts_all full_provider (x_hellos full_exchange) (x_msgs full_exchange) 1 3 /\
  signer_fits toy full_provider /\
  answer toy full_provider (x_client full_exchange) (x_hellos full_exchange ++ raw (x_msgs full_exchange)) (answered full_exchange) full_answer /\
  Forall (fun m => length m + 22 <= 300) full_answer /\
  (exists key iv, session_keys toy None full_exchange "c ap traffic" key iv) /\
  (exists key iv, session_keys toy None full_exchange "s ap traffic" key iv).
Proof.
  split. { rewrite full_conn_opened. cbn [snd]. eexists. reflexivity. }
  split; [vm_compute; reflexivity|]. split; [vm_compute; lia|]. split; [reflexivity|]. split.
  { split; [reflexivity|]. exists (some (rfc_handshake toy None srv_dhe)). repeat split; vm_compute; reflexivity. }
  split.
  { split; [intros (m & [] & _)|]. intros pre b v post E.
    assert (Epost : pre = full_before /\ v = x_verify full_exchange).
    { destruct post as [|z post _] using rev_ind.
      - apply app_inj_tail in E as [E1 E2]. injection E2 as _ E2. auto.
      - exfalso. rewrite app_comm_cons, app_assoc in E. apply app_inj_tail in E as [E _].
        assert (Hin : In (b, M_Finished v) (pre ++ (b, M_Finished v) :: post)) by (apply in_or_app; right; now left). rewrite <- E in Hin.
        cbn in Hin. destruct Hin as [H|[H|[H|[H|[]]]]]; apply pair_equal_spec in H as [_ H]; discriminate H. }
    destruct Epost as [-> ->]. vm_compute. reflexivity. }
  split.
  { apply aa_other; [exact I|]. apply aa_other; [exact I|]. eapply aa_cert; [reflexivity|].
    apply (aa_verify full_provider _ _ SS_EcdsaSecp256r1Sha256 _ _ 2 3 3); [reflexivity|].
    apply aa_other; [exact I|]. apply aa_nil. }
  split. { right. split; [eexists; reflexivity|]. split; [vm_compute; lia|]. intros sign scheme E m sg. injection E as <- _. intros [= <-].
    change (length (firstn 6 (t_hash m)) <= 16). rewrite firstn_length. lia. }
  split.
  { change (answered full_exchange) with (Some [x07; x08]). change (p_client_cert full_provider) with (Some (CE_X509 [xc1; xc2])).
    exists (fun m => Some (firstn 6 (t_hash m))), SS_EcdsaSecp256r1Sha256, (firstn 6 (t_hash (client_signs toy (x_hellos full_exchange ++ raw (x_msgs full_exchange) ++ cert_message [x07; x08] [[xc1; xc2]])))), (skipn 4 (nth 2 full_answer [])). split; [reflexivity|].
    split; [|split]; vm_compute; reflexivity. }
  split. { repeat constructor; vm_compute; lia. }
  split.
  - exists (some (rfc_key toy (some (rfc_derive_secret toy (some (rfc_master toy None srv_dhe)) "c ap traffic" (key_messages full_exchange))))),
      (some (rfc_iv toy (some (rfc_derive_secret toy (some (rfc_master toy None srv_dhe)) "c ap traffic" (key_messages full_exchange))))).
    exists (some (rfc_master toy None srv_dhe)), (some (rfc_derive_secret toy (some (rfc_master toy None srv_dhe)) "c ap traffic" (key_messages full_exchange))).
    repeat split; vm_compute; reflexivity.
  - exists (some (rfc_key toy (some (rfc_derive_secret toy (some (rfc_master toy None srv_dhe)) "s ap traffic" (key_messages full_exchange))))),
      (some (rfc_iv toy (some (rfc_derive_secret toy (some (rfc_master toy None srv_dhe)) "s ap traffic" (key_messages full_exchange))))).
    exists (some (rfc_master toy None srv_dhe)), (some (rfc_derive_secret toy (some (rfc_master toy None srv_dhe)) "s ap traffic" (key_messages full_exchange))).
    repeat split; vm_compute; reflexivity.
Qed.

(** So the client of that handshake succeeds, by the theorem. *)
Example full_succeeds : exists c, cn_open toy full_provider small_config 0 full_start = (Ok tt, c) /\ incoming c = [x17; x03].
Proof.
  destruct full_hypotheses as ((evs & Hs) & Hstr & Hsz & Ht & Hsec & Hfin & Hacc & Hsf & Hans & Hlen & _).
  destruct (C44_handshake nat toy full_provider small_config (zeros 300) silent 0 1 toy_ok eq_refl) as (hello & Hpin & Hgo); auto.
  { constructor. } { constructor. }
  assert (Eh : x_hello full_exchange = hello).
  { destruct (Hpin _ _ _ full_start_new) as [evs' E]. rewrite E in Hs. exact (goes_out_inj _ _ _ _ (eq_sym Hs)). }
  destruct (Hgo (zeros 400) full_rx full_start full_exchange [x17; x03] 3 full_answer) as (c & Ho & _ & Hin & _); auto using full_start_new.
  - unfold chunked, full_rx. constructor; [|constructor; [|constructor; [|constructor]]]; eexists; (split; [reflexivity|discriminate]).
  - rewrite Hstr. apply C44_server_flight; [exact toy_ok|exact full_followable].
  - eauto.
Qed.

(** ** What servers may do and the client does not follow *)

(** The client needs every message whole in one record; RFC 8446 section 5.1 lets a server spread
    a message over several.  Here EncryptedExtensions and Finished arrive in two records, cut at
    byte [k]; the client does not follow when the cut is inside a message. *)
Definition cut_flight (k : nat) : bytes :=
  plain_handshake srv_hello ++
  y_record None full_hellos 0 ty_handshake (firstn k (empty_ee ++ y_finished None full_hellos empty_ee)) ++
  y_record None full_hellos 1 ty_handshake (skipn k (empty_ee ++ y_finished None full_hellos empty_ee)).
Definition cut_conn (k : nat) : conn := match opening full_provider 0 [RxData (cut_flight k)] with Ok (_, c) => c | _ => no_conn end.
Definition cut_conn_20 : conn := Eval vm_compute in cut_conn 20.
Definition cut_conn_6 : conn := Eval vm_compute in cut_conn 6.
Theorem C44_refuted : length empty_ee = 6 /\
  opening full_provider 0 [RxData (cut_flight 6)] = Ok (Ok tt, cut_conn_6) /\
  opening full_provider 0 [RxData (cut_flight 20)] = Ok (Err (ParseErr PE_InsufficientBytes), cut_conn_20).
Proof. split; [reflexivity|]. split; vm_compute; reflexivity. Qed.

(** So, by the theorem, no way of reading this stream makes it a flight the client can follow. *)
Example cut_exactly : exists hello,
  (exists evs c0, cn_new toy (zeros 400) (zeros 300) [RxData (cut_flight 20)] silent = Ok c0 /\
     sent_log (snd (cn_open toy full_provider small_config 0 c0)) = goes_out (SpecHandshake.hello_record hello) ++ evs) /\
  forall x rest v0 v1 ms, told full_provider small_config 0 v0 -> x_hello x = hello ->
    whole_flight toy 400 (cut_flight 20) x rest ->
    secrets_ok toy None (p_secret full_provider) x -> finishes toy x ->
    accepts_all full_provider (x_hellos x) (x_msgs x) v0 v1 ->
    signature_fits toy full_provider (x_hellos x ++ raw (x_msgs x)) (answered x) ->
    answer toy full_provider (x_client x) (x_hellos x ++ raw (x_msgs x)) (answered x) ms ->
    Forall (fun m => length m + 22 <= 300) ms -> False.
Proof.
  destruct (C51_exactly nat toy full_provider small_config (zeros 300) silent 0 toy_ok eq_refl (Forall_nil _) (Forall_nil _)) as (hello & Hpin & Hex).
  assert (Hsz : hello_size small_config (length (c_pub toy (p_secret full_provider))) (hash_len toy) <= length (zeros 300)).
  { apply Nat.leb_le. vm_compute. reflexivity. }
  assert (Ht : told full_provider small_config 0 1) by reflexivity.
  destruct C44_refuted as (_ & _ & Hopen). unfold opening, open_with in Hopen.
  destruct (cn_new toy (zeros 400) (zeros 300) [RxData (cut_flight 20)] silent) as [c0|e|y| |] eqn:En; try discriminate.
  exists hello. split.
  - destruct (Hpin _ _ c0 1 En Ht Hsz) as (evs & He). exists evs, c0. split; [reflexivity|exact He].
  - intros x rest v0 v1 ms H1 H2 H3 H4 H5 H6 H7 H8 H9.
    assert (Ho : fst (cn_open toy full_provider small_config 0 c0) = Ok tt).
    { apply (proj2 (Hex (zeros 400) [RxData (cut_flight 20)] c0 En ltac:(constructor; [eexists; split; [reflexivity|discriminate]|constructor]))). split; [exact Hsz|].
      exists x, rest, v0, v1, ms. unfold stream. cbn [map concat]. auto 12. }
    cbn [obind] in Hopen. destruct (cn_open toy full_provider small_config 0 c0) as [o cx]. cbn [fst] in Ho. subst o.
    apply (f_equal (fun o => match o with Ok (r, _) => r | _ => Ok tt end)) in Hopen. discriminate.
Qed.

Print Assumptions C44_message.
Print Assumptions C44_handshake.
Print Assumptions C44_server_flight.
Print Assumptions C44_server_exists.
Print Assumptions C44_session.
Print Assumptions C44_refuted.
Print Assumptions C51_exactly.
