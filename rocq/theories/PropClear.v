(** * C25, C28, C29, C39, C44: what is wrong is wrong for every client

    The theorems called [_refuted] in PropRead.v, PropHandshake.v, PropPki.v and PropComplete.v show one client and one
    server each.  Here: every client, every connection. *)
From Coq Require Import String List NArith Arith Bool Lia ZArith.
From Coq.Strings Require Import Byte.
From Coq Require Import ZifyBool ZifyNat ZifyN.
From Verif Require Import Base ParseBuffer Buffer Codes Extensions Crypto KeySchedule Config Handshake Record WriteBuffer
  Transport RecordReader ReadBuffer Connection Api Pki WebPki BaseProofs ParseProofs SpecWire SpecCodes SpecMessages WireProofs SpecKeys
  KeyProofs WriteProofs SpecRecord RecordProofs SpecRead ReadProofs SpecSend SendProofs SpecSession SpecHello HelloProofs PropHello HsWrite HsProofs ConnProofs
  SpecHandshake SpecOpen RecvProofs ServeProofs PropSend PropWrite PropRead PropKeys FlightProofs SpecComplete MessageProofs OpenProofs CompleteProofs
  PropComplete SpecDefect SpecFailure FailureProofs CaseProofs PropFailure SpecReceiver ListenProofs ReceiverProofs PropReceiver SpecOffers PropOffers SpecPki PropPki
  Toy ToyRun ToyServer PropSession PropHandshake PropRecv ToyPki.
Import ListNotations.
Local Open Scope list_scope.

Ltac Zify.zify_post_hook ::= Z.div_mod_to_equations.

(** ** C25 *)

(** Seven bytes that anybody can send end every session.  In whatever state an open connection is, with nothing left to
    take, the next call that waits for data reports [ConnectionClosed]; no data comes or goes from then on. *)
Theorem C25_clear_refuted : forall C L c o v1 v2 lvl rest r c' ops rs c'', crypto_ok C -> listening C L c -> cn_opened c = true -> unread c = [] ->
  waits o = true -> 2 <= room c -> lvl = x01 \/ lvl = x02 ->
  incoming c = [x15; v1; v2; x00; x02; lvl; x00] ++ rest ->
  step C o c = (r, c') -> run C ops c' = (rs, c'') ->
  r = Err ConnectionClosed /\ Forall (fun p => moves_data (fst p) = true -> snd p = Err MissingHandshake) rs.
Proof.
  intros C L c o v1 v2 lvl rest r c' ops rs c'' HC Hli Hop Hun Hw Hroom Hlvl Hin Hst Hrun.
  pose proof (listening_mirrors C L c HC Hli) as Hm.
  assert (Hrec : receives o = true) by (destruct o; (reflexivity || discriminate Hw)).
  assert (Hh : hears C (read_key c) (read_iv c) (room c) (next_seq c) (incoming c) V_closed (next_seq c) rest).
  { rewrite Hin. change ([x15; v1; v2; x00; x02; lvl; x00] ++ rest) with ([x15; v1; v2; x00; x02] ++ [lvl; x00] ++ rest).
    apply he_record; [|apply ri_close with (l := if Byte.eqb lvl x01 then AL_Warning else AL_Fatal); [reflexivity|]|reflexivity].
    - split; [split; reflexivity|]. split; [|exact Hroom]. cbn. auto 10.
    - exists []. destruct Hlvl as [-> | ->]; reflexivity. }
  assert (Hrc : receive C (read_key c) (read_iv c) (room c) (receiver_of c) o (Err ConnectionClosed) (mk_receiver false [] (next_seq c) rest)).
  { unfold receiver_of. rewrite Hop, Hun. now apply rc_closed. }
  destruct (machine_step C _ c o r c' HC Hm Hrec Hst) as [(x & -> & Hp)|(Hp & Hm' & _)].
  - destruct (receive_unique C _ _ _ _ o _ _ _ _ Hrec Hrc (Hp (receiver_of c))) as [E _]; discriminate.
  - destruct (receive_unique C _ _ _ _ o _ _ _ _ Hrec Hrc Hp) as [E Es].
    subst r. split; [reflexivity|]. specialize (Es ltac:(discriminate)).
    apply (closed_run C (incoming c) HC ops c' rs c''); [apply Hm'| |exact Hrun].
    apply (f_equal q_open) in Es. symmetry. exact Es.
Qed.

(** ** C28 *)

(** A message in a record of its own, in the clear; and a whole flight so. *)
Definition clear_record (m : bytes) : bytes := uint 1 22 ++ uint 2 0x0303 ++ vec 2 m.
Definition in_the_clear (x : exchange) : bytes := concat (map clear_record (x_shello x :: map fst (x_msgs x))).

Definition clear_pair (m : bytes) : bytes * bytes := (uint 1 22 ++ uint 2 0x0303 ++ uint 2 (N.of_nat (length m)), m).

Lemma clear_wire ms : wire_of (map clear_pair ms) = concat (map clear_record ms).
Proof.
  induction ms as [|m ms IH]; [reflexivity|]. unfold wire_of in *. cbn [map concat]. now rewrite IH.
Qed.

Lemma clear_carried C key iv : forall ms n, Forall (fits 2) ms -> carried C key iv n (map clear_pair ms) ms.
Proof.
  induction ms as [|m ms IH]; intros n H; [constructor|]. inversion H as [|? ? H1 H2]; subst. cbn [map].
  pose proof (ca_clear C key iv n (fst (clear_pair m)) m [] (map clear_pair ms) ms) as G. rewrite app_nil_r in G.
  apply G; [now apply plain_framed|reflexivity|now apply IH].
Qed.

Lemma clear_unprotected ms : protected_in (map clear_pair ms) = 0%N.
Proof. unfold protected_in. induction ms as [|m ms IH]; [reflexivity|]. exact IH. Qed.

Lemma in_raw (m : bytes * smsg) ms : In m ms -> length (fst m) <= length (raw ms).
Proof. intros H. unfold raw. induction ms as [|a ms IH]; [destruct H|]. cbn [map concat]. rewrite app_length. destruct H as [->|H]; [lia|specialize (IH H); lia]. Qed.

Lemma clear_whole C room x l rest : crypto_ok C -> followable C room x l -> x_after x = [] ->
  ~ (exists m, In m (x_before x) /\ is_finished (snd m)) -> whole_flight C room (in_the_clear x ++ rest) x rest.
Proof.
  intros HC (Hu & Hsh & Hf2 & Hl0 & Hms & Hund & _ & Hfit & _) Haf Hnf.
  assert (Hsz : Forall (fun b => fits 2 b /\ length b <= room) (map fst (x_msgs x))).
  { apply Forall_forall. intros b Hb. apply in_map_iff in Hb as (m & <- & Hm). rewrite <- Hms in Hm. unfold parts_msgs in Hm.
    apply in_concat in Hm as (ms & Hq & Hm). apply in_map_iff in Hq as (q & <- & Hq). rewrite Forall_forall in Hfit. specialize (Hfit q Hq).
    destruct q as [|ms pad]; [destruct Hm|]. cbn [part_msgs] in Hm. destruct Hfit as [F1 F2]. pose proof (in_raw m ms Hm). split; [apply fits_2; lia|lia]. }
  assert (Em : x_msgs x = x_before x ++ [(x_finished x, M_Finished (x_verify x))]) by (unfold x_msgs; now rewrite Haf).
  rewrite Em, map_app in Hsz. cbn [map fst] in Hsz. apply Forall_app in Hsz as [S1 S2]. inversion S2 as [|? ? S3 _]; subst.
  exists (fst (clear_pair (x_shello x))), [], (map clear_pair (map fst (x_before x))), (clear_pair (x_finished x)), (x_before x), [(x_finished x, M_Finished (x_verify x))].
  rewrite app_nil_r. split.
  { unfold in_the_clear. rewrite <- clear_wire, Em. cbn [map]. rewrite !map_app. reflexivity. }
  split; [now apply plain_framed|]. split; [reflexivity|]. split; [exact Hu|]. split; [exact Hsh|]. split; [exact Em|].
  split; [apply clear_carried; eapply Forall_impl; [|exact S1]; intros b [B _]; exact B|].
  split. { apply (clear_carried C _ _ [x_finished x]). constructor; [apply S3|constructor]. }
  split; [exact Hnf|]. split; [exact Hund|]. split.
  - constructor; [exact Hl0|]. apply Forall_app. split; [|constructor; [apply S3|constructor]].
    apply Forall_forall. intros r Hr. apply in_map_iff in Hr as (b & <- & Hb). rewrite Forall_forall in S1. apply (S1 b Hb).
  - rewrite protected_in_app, clear_unprotected. reflexivity.
Qed.

(** Every flight of a server that a client can follow, it follows in the clear as well: each message, the certificates and the
    Finished too, in a handshake record that is not protected.  [open] returns Ok, with the same session keys. *)
Theorem C28_clear_refuted : forall V C (p : provider V) cfg wbuf tx v v0, crypto_ok C -> length (p_random p) = 32 ->
  hello_size cfg (length (c_pub C (p_secret p))) (hash_len C) <= length wbuf ->
  Forall (eq WrOk) (tx_wr tx) -> Forall (eq FlOk) (tx_fl tx) -> told p cfg v v0 ->
  exists hello,
    (forall rbuf rx c0, cn_new C rbuf wbuf rx tx = Ok c0 ->
       exists evs, sent_log (snd (cn_open C p cfg v c0)) = tx_log tx ++ goes_out (SpecHandshake.hello_record hello) ++ evs) /\
    forall rbuf rx c0 x l rest v1 ms, cn_new C rbuf wbuf rx tx = Ok c0 -> chunked rx ->
      x_hello x = hello -> followable C (length rbuf) x l -> x_after x = [] -> ~ (exists m, In m (x_before x) /\ is_finished (snd m)) ->
      secrets_ok C (option_map fst (cfg_psk cfg)) (p_secret p) x -> finishes C x ->
      (p_has_verifier p = true -> accepts_all p (x_hellos x) (x_msgs x) v0 v1) ->
      signer_fits C p ->
      answer C p (x_client x) (x_hellos x ++ raw (x_msgs x)) (answered x) ms ->
      Forall (fun m => length m + 22 <= length wbuf) ms ->
      stream rx = in_the_clear x ++ rest ->
      exists c, cn_open C p cfg v c0 = (Ok tt, c) /\ incoming c = rest /\
        session_keys C (option_map fst (cfg_psk cfg)) x "c ap traffic" (write_key c) (write_iv c) /\
        session_keys C (option_map fst (cfg_psk cfg)) x "s ap traffic" (read_key c) (read_iv c).
Proof.
  intros V C p cfg wbuf tx v v0 HC Hr Hsz H1 H2 Ht.
  destruct (C44_handshake V C p cfg wbuf tx v v0 HC Hr Hsz H1 H2 Ht) as (hello & Hsent & Hgo). exists hello. split; [exact Hsent|].
  intros rbuf rx c0 x l rest v1 ms Hnew Hch Hx Hfol Haf Hnf Hsec Hfin Hacc Hsf Hans Hlen Hst.
  destruct (Hgo rbuf rx c0 x rest v1 ms Hnew Hch Hx) as (c & Ho & _ & Hi & _ & _ & _ & K1 & K2); auto.
  { rewrite Hst. eapply clear_whole; eauto. }
  exists c. auto.
Qed.

(** ** C29 *)

(** The extensions of a ServerHello: the version of TLS, if it names one, and the key share. *)
Definition hello_choice (selected : option N) (group : N) (share : bytes) : list ext_item :=
  match selected with Some n => [(43%N, uint 2 n)] | None => [] end ++ [(51%N, uint 2 group ++ vec 2 share)].

Lemma hello_choice_ok C version random sid suite compression selected group share :
  (version < 65536)%N -> length random = 32 -> fits 1 sid -> In suite (map fst iana_cipher_suite) -> (compression < 256)%N ->
  In group (map fst iana_named_group) -> length share <= 2000 ->
  let items := hello_choice selected group share in let b := message (F_ServerHello version random sid suite compression) items in
  understood C b (M_ServerHello suite items) /\ share_of items group share /\ fits 2 b /\ length b <= 320 + length share.
Proof.
  intros Hv Hr Hs Hsu Hc Hg Hl items b. assert (Hfs : fits 2 share) by (apply fits_2; lia).
  assert (Hsid : length sid <= 255) by (unfold fits in Hs; lia).
  assert (Hiw : length (items_wire items) <= 20 + length share).
  { unfold items, hello_choice, items_wire, item_wire. destruct selected; cbn [app map concat fst snd]; rewrite ?app_length, ?vec_length, ?app_length, ?vec_length, ?uint_length; cbn [length]; lia. }
  assert (Hblk : block_ok items).
  { split; [|apply fits_2; lia]. unfold items, hello_choice. apply Forall_app. split.
    - destruct selected; constructor; [|constructor]. split; [reflexivity|]. apply fits_2. cbn [snd]. rewrite uint_length. lia.
    - constructor; [|constructor]. split; [reflexivity|]. apply fits_2. cbn [snd]. rewrite app_length, vec_length, uint_length. lia. }
  assert (Hb : length b <= 320 + length share).
  { unfold b, message, frame_body, ext_block. rewrite ?app_length, ?vec_length, ?app_length, ?uint_length, ?vec_length. rewrite Hr. lia. }
  split; [|split; [|split; [apply fits_2; lia|exact Hb]]].
  - split.
    + eexists (uint 3 _), _. split; [apply uint_length|]. split; [|reflexivity].
      exists version, random, sid, compression. split; [|split; [exact Hblk|reflexivity]]. repeat split; auto.
    + assert (Erec : recognised_items items = items) by (unfold items, hello_choice; destruct selected; reflexivity).
      unfold digestible. rewrite Erec. split; [|unfold items, hello_choice; destruct selected; cbn; lia].
      intros t w Hin. unfold items, hello_choice in Hin. apply in_app_or in Hin. destruct Hin as [Hin|[Hin|[]]].
      * destruct selected; [|destruct Hin]. destruct Hin as [Hin|[]]. apply pair_equal_spec in Hin as [<- <-]. split; [cbn; auto 10|]. cbn [content_ok]. rewrite uint_length. lia.
      * apply pair_equal_spec in Hin as [<- <-]. split; [cbn; auto 10|]. exists group, share, []. rewrite app_nil_r. auto.
  - exists (match selected with Some n => [(43%N, uint 2 n)] | None => [] end), [], []. rewrite app_nil_r. split; [reflexivity|]. split; [|auto].
    destruct selected; constructor; [cbn; lia|constructor].
Qed.

(** Whatever the client offered: the server may answer with any cipher suite that the library knows the number of, with any
    version of TLS or none, with any group (the key share being one that the client can use), with any random bytes - those of a
    HelloRetryRequest too -, any session id and any compression.  There is a server for each with which [open] returns Ok. *)
Theorem C29_any_refuted : forall V C (p : provider V) cfg wbuf rbuf tx v v0 version random sid suite compression selected group share dhe,
  crypto_ok C -> length (p_random p) = 32 ->
  hello_size cfg (length (c_pub C (p_secret p))) (hash_len C) <= length wbuf -> hash_len C + 26 <= length wbuf ->
  Forall (eq WrOk) (tx_wr tx) -> Forall (eq FlOk) (tx_fl tx) -> told p cfg v v0 ->
  (version < 65536)%N -> length random = 32 -> fits 1 sid -> In suite (map fst iana_cipher_suite) -> (compression < 256)%N ->
  In group (map fst iana_named_group) -> length share <= 2000 -> c_dh C (p_secret p) share = Some dhe ->
  320 + length share <= length rbuf -> hash_len C + 27 <= length rbuf -> hash_len C <= 64 ->
  let shello := message (F_ServerHello version random sid suite compression) (hello_choice selected group share) in
  exists x, x_shello x = shello /\ secrets_ok C (option_map fst (cfg_psk cfg)) (p_secret p) x /\ finishes C x /\
    forall rx c0, cn_new C rbuf wbuf rx tx = Ok c0 -> chunked rx -> stream rx = flight_wire C x [P_messages (x_msgs x) 0] ->
      exists c, cn_open C p cfg v c0 = (Ok tt, c).
Proof.
  intros V C p cfg wbuf rbuf tx v v0 version random sid suite compression selected group share dhe HC Hr Hsz Hw H1 H2 Ht Hv Hrn Hs Hsu Hc Hg Hl Hd Hr1 Hr2 Hh shello.
  destruct (hello_choice_ok C version random sid suite compression selected group share Hv Hrn Hs Hsu Hc Hg Hl) as (U1 & U2 & U3 & U4).
  destruct (C65_any V C p cfg wbuf rbuf tx v v0 shello suite (hello_choice selected group share) group share dhe [] HC Hr Hsz Hw H1 H2 Ht U1 U2 U3 ltac:(unfold shello; lia) Hd)
    as (x & E & _ & Hsec & Hfin & Hgo).
  - split; [constructor|]. unfold fits, items_wire. cbn. lia.
  - split; [intros t b []|cbn; lia].
  - change (length (ee_message [])) with 6. lia.
  - change (length (ee_message [])) with 6. lia.
  - exists x. split; [exact E|]. split; [exact Hsec|]. split; [exact Hfin|]. intros rx c0 Hnew Hch Hst. destruct (Hgo rx c0 Hnew Hch Hst) as (c & _ & Ho & _). eauto.
Qed.

(** ** C39 *)

Definition no_certificate (m : smsg) : Prop := match m with M_Certificate _ _ _ => False | _ => True end.

Lemma no_cert_transcript C (p : provider pki_state) server : p_has_verifier p = true ->
  (forall cv s, pv_transcript s = None -> fst (p_verify_sig p cv s) = Panic PUnwrap) ->
  forall tr v ms v', messages_taken C p server tr v ms v' -> Forall (fun m => no_certificate (snd m)) ms ->
  pv_transcript v = None -> pv_transcript v' = None.
Proof.
  intros Hp Hs tr v ms v' H. induction H as [|tr v b m v1 ms v2 (_ & _ & H) _ IH]; intros Hc Hn; [exact Hn|].
  inversion Hc as [|? ? Hm Hc']; subst. apply IH; [exact Hc'|]. destruct m; rewrite ?Hp in H; try (now subst v1).
  - destruct Hm.
  - exfalso. destruct H as (sc & _ & H). apply (f_equal fst) in H. rewrite Hs in H by exact Hn. discriminate H.
  - destruct H as [_ ->]. exact Hn.
Qed.

(** Every client that checks certificates with pki.rs or webpki.rs: at any point of the handshake, if the server has sent no
    Certificate, a CertificateVerify in a record in the clear - any scheme, any signature - makes [open] panic. *)
Theorem C39_any_refuted : forall C (p : provider pki_state) cfg wbuf tx v v0, crypto_ok C -> length (p_random p) = 32 ->
  hello_size cfg (length (c_pub C (p_secret p))) (hash_len C) <= length wbuf ->
  Forall (eq WrOk) (tx_wr tx) -> Forall (eq FlOk) (tx_fl tx) -> told p cfg v v0 ->
  (exists L F ca now size, uses_pki C L F ca now size p) \/ (exists W alloc ca now size, uses_webpki C W alloc ca now size p) ->
  pv_transcript v = None ->
  exists hello,
    (forall rbuf rx c0, cn_new C rbuf wbuf rx tx = Ok c0 ->
       exists evs, sent_log (snd (cn_open C p cfg v c0)) = tx_log tx ++ goes_out (SpecHandshake.hello_record hello) ++ evs) /\
    forall rbuf rx c0 x ms n v1 scheme signature rest, cn_new C rbuf wbuf rx tx = Ok c0 -> chunked rx ->
      x_hello x = hello -> secrets_ok C (option_map fst (cfg_psk cfg)) (p_secret p) x ->
      In scheme (map fst iana_sig_scheme) -> length (cv_message scheme signature) <= length rbuf -> fits 2 (cv_message scheme signature) ->
      begun C p (length rbuf) (stream rx) x ms n v0 v1 (clear_record (cv_message scheme signature) ++ rest) ->
      Forall (fun m => no_certificate (snd m)) ms ->
      exists c, cn_open C p cfg v c0 = (Panic PUnwrap, c).
Proof.
  intros C p cfg wbuf tx v v0 HC Hr Hsz H1 H2 Ht Huse Hv.
  destruct (C53_later pki_state C p cfg wbuf tx v v0 HC Hr Hsz H1 H2 Ht) as (hello & Hsent & Hgo). exists hello. split; [exact Hsent|].
  intros rbuf rx c0 x ms n v1 scheme signature rest Hnew Hch Hx Hsec Hsc Hl Hf2 Hbg Hnc.
  assert (Hp : p_has_verifier p = true) by (destruct Huse as [(L & F & ca & now & size & U)|(W & al & ca & now & size & U)]; apply U).
  assert (Hs : forall cv s, pv_transcript s = None -> fst (p_verify_sig p cv s) = Panic PUnwrap).
  { intros cv s E. destruct Huse as [(L & F & ca & now & size & U)|(W & al & ca & now & size & U)]; destruct U as (_ & _ & _ & ->).
    - unfold pv_verify_signature. rewrite E. reflexivity.
    - unfold wv_verify_signature. rewrite E. reflexivity. }
  assert (Hv0 : pv_transcript v0 = None).
  { unfold told in Ht. destruct (cfg_server_name cfg) as [nm|]; [|now subst]. rewrite Hp in Ht.
    assert (Hh : p_set_hostname p = pv_set_hostname) by (destruct Huse as [(L & F & ca & now & size & U)|(W & al & ca & now & size & U)]; apply U).
    rewrite Hh in Ht. unfold pv_set_hostname in Ht. destruct (length nm <=? HOSTNAME_MAXLEN); apply pair_equal_spec in Ht as [E <-]; [exact Hv|discriminate E]. }
  pose proof Hbg as (h0 & junk & rs & _ & _ & _ & _ & _ & _ & Htk & _).
  pose proof (no_cert_transcript C p _ Hp Hs _ _ _ _ Htk Hnc Hv0) as Hv1.
  destruct (Hgo rbuf rx c0 x ms n v1 _ Hnew Hch Hx Hbg Hsec) as [_ G].
  destruct (G (fst (clear_pair (cv_message scheme signature))) (cv_message scheme signature) rest) as [K _];
    [unfold clear_record, clear_pair; cbn [fst]; rewrite (vec_eq 2), <- !app_assoc; reflexivity|now apply plain_framed|exact Hl|].
  destruct (K (Panic PUnwrap)) as (c & Ho & _); [|eauto].
  apply rf_message with (b := cv_message scheme signature) (m := M_CertificateVerify scheme signature) (junk := []);
    [reflexivity|now rewrite app_nil_r|].
  split.
  - split; [|exact I]. exists (uint 3 (N.of_nat (length (uint 2 scheme ++ vec 2 signature)))), (uint 2 scheme ++ vec 2 signature).
    split; [apply uint_length|]. split; [|unfold cv_message; rewrite (vec_eq 3); reflexivity].
    cbn [smsg_body]. split; [exact Hsc|]. split; [|reflexivity].
    unfold fits, cv_message in *. rewrite app_length, (vec_length 3), app_length, (vec_length 2), !uint_length in Hf2. lia.
  - split; [discriminate|]. split; [exact Hp|]. apply in_map_iff in Hsc as ((code & sch) & Ec & Hin). cbn [fst] in Ec. subst code.
    exists sch, (snd (p_verify_sig p (mk_cv sch signature) v1)). split.
    + clear -Hin. cbn in Hin. repeat (destruct Hin as [Hin|Hin]; [injection Hin as <- <-; reflexivity|]). destruct Hin.
    + rewrite (surjective_pairing (p_verify_sig p (mk_cv sch signature) v1)), Hs by exact Hv1. reflexivity.
Qed.

(** ** C44 *)

(** No message is the beginning of another. *)
Lemma part_faulty C b m k : understood C b m -> k < length b -> exists e, faulty C (firstn k b) e.
Proof.
  intros Hb Hk. destruct (bytes_cases C (firstn k b)) as [He|(b' & m' & junk & E & Hb')]; [exact He|exfalso].
  destruct (first_message C b b' m m' [] (junk ++ skipn k b) Hb Hb') as (_ & E' & _).
  - rewrite app_nil_r, app_assoc, <- E. symmetry. apply firstn_skipn.
  - symmetry in E'. apply app_eq_nil in E' as [_ E']. apply (f_equal (@length byte)) in E'. rewrite skipn_length in E'. cbn [length] in E'. lia.
Qed.

(** RFC 8446 section 5.1 lets a server spread a message over records.  Every client, at every point of every handshake: a
    message - whichever - of which a record brings the beginning, be it after other messages, makes [open] fail, with the error
    that the beginning alone gives (C79); what the next record brings does not matter. *)
Theorem C44_cut_refuted : forall V C (p : provider V) cfg wbuf tx v v0, crypto_ok C -> length (p_random p) = 32 ->
  hello_size cfg (length (c_pub C (p_secret p))) (hash_len C) <= length wbuf ->
  Forall (eq WrOk) (tx_wr tx) -> Forall (eq FlOk) (tx_fl tx) -> told p cfg v v0 ->
  exists hello,
    (forall rbuf rx c0, cn_new C rbuf wbuf rx tx = Ok c0 ->
       exists evs, sent_log (snd (cn_open C p cfg v c0)) = tx_log tx ++ goes_out (SpecHandshake.hello_record hello) ++ evs) /\
    forall rbuf rx c0 x ms n v1 ms' v2 b m k pad rest, cn_new C rbuf wbuf rx tx = Ok c0 -> chunked rx ->
      x_hello x = hello -> secrets_ok C (option_map fst (cfg_psk cfg)) (p_secret p) x ->
      messages_taken C p (x_server x) (x_hellos x ++ raw ms) v1 ms' v2 -> understood C b m -> 0 < k -> k < length b ->
      length (raw ms') + k + 1 + pad + 16 <= length rbuf -> (N.of_nat (length (raw ms') + k + 1 + pad + 16) < 65536)%N ->
      begun C p (length rbuf) (stream rx) x ms n v0 v1
        (rfc_record C (x_skey x) (x_siv x) n ty_handshake (raw ms' ++ firstn k b) pad ++ rest) ->
      exists e c, cn_open C p cfg v c0 = (Err e, c) /\ faulty C (firstn k b) e.
Proof.
  intros V C p cfg wbuf tx v v0 HC Hr Hsz H1 H2 Ht.
  destruct (C53_later V C p cfg wbuf tx v v0 HC Hr Hsz H1 H2 Ht) as (hello & Hsent & Hgo). exists hello. split; [exact Hsent|].
  intros rbuf rx c0 x ms n v1 ms' v2 b m k pad rest Hnew Hch Hx Hsec Htk Hb Hk0 Hk Hl Hl2 Hbg.
  destruct (Hgo rbuf rx c0 x ms n v1 _ Hnew Hch Hx Hbg Hsec) as [_ G].
  destruct (rfc_record_parts C (x_skey x) (x_siv x) n ty_handshake (raw ms' ++ firstn k b) pad HC) as (f & Er & Hf & Hop).
  assert (Elen : length (raw ms' ++ firstn k b) = length (raw ms') + k) by (rewrite app_length, firstn_length; lia).
  rewrite Elen in Er, Hf, Hop.
  destruct (G (rfc_header (length (raw ms') + k + 1 + pad + 16)) f rest) as [_ K]; [now rewrite Er, <- app_assoc| |lia|].
  { apply rfc_header_framed; [exact Hf|lia]. }
  destruct (part_faulty C b m k Hb Hk) as [e He]. destruct (K e) as (c & Ho & _); [|exists e, c; auto].
  apply (rg_sealed _ _ _ _ _ _ _ _ _ _ (rfc_inner ty_handshake (raw ms' ++ firstn k b) pad) ms' v2 (firstn k b)); auto.
  - apply unpad_inner. discriminate.
  - intros E. apply (f_equal (@length byte)) in E. rewrite firstn_length in E. cbn [length] in E. lia.
Qed.

(** ** Concrete cases *)

(** C25: a connection over which nothing has come; the seven bytes. *)
Example C25_clear_case : let w := [x15; x03; x03; x00; x02; x01; x00] in let c := conn_in w in
  listening toy 300 c /\ cn_opened c = true /\ unread c = [] /\ room c = 400 /\ incoming c = w /\
  fst (step toy (OpRead (zeros 4)) c) = Err ConnectionClosed /\ fst (step toy (OpWrite [x41]) (snd (step toy (OpRead (zeros 4)) c))) = Err MissingHandshake.
Proof.
  cbv zeta. split; [destruct (conn_in_waiting [x15; x03; x03; x00; x02; x01; x00]) as (H1 & _ & _ & H4 & H5); split; [exact H1|split; assumption]|].
  repeat split; vm_compute; reflexivity.
Qed.

Lemma full_hello_pinned hello :
  (forall rbuf rx c0, cn_new toy rbuf (zeros 300) rx silent = Ok c0 ->
     exists evs, sent_log (snd (cn_open toy full_provider small_config 0 c0)) = [] ++ goes_out (SpecHandshake.hello_record hello) ++ evs) ->
  x_hello full_exchange = hello.
Proof.
  intros Hpin. destruct full_hypotheses as ((evs & Hs) & _). destruct (Hpin _ _ _ full_start_new) as [evs' E]. rewrite E in Hs.
  exact (goes_out_inj _ _ _ _ (eq_sym Hs)).
Qed.

(** C28: the handshake of ToyServer.v, with a certificate, and asking for one: in the clear. *)
Example C28_clear_case : forall c0, cn_new toy (zeros 400) (zeros 300) [RxData (in_the_clear full_exchange ++ [x17; x03])] silent = Ok c0 ->
  exists c, cn_open toy full_provider small_config 0 c0 = (Ok tt, c) /\ incoming c = [x17; x03].
Proof.
  intros c0 Hnew. destruct full_hypotheses as (_ & _ & Hsz & Ht & Hsec & Hfin & Hacc & Hsf & Hans & Hlen & _).
  destruct (C28_clear_refuted nat toy full_provider small_config (zeros 300) silent 0 1 toy_ok eq_refl Hsz (Forall_nil _) (Forall_nil _) Ht) as (hello & Hpin & Hgo).
  pose proof (full_hello_pinned hello Hpin) as Hx.
  destruct (Hgo (zeros 400) _ c0 full_exchange full_parts [x17; x03] 3 full_answer Hnew) as (c & Ho & Hi & _); auto.
  - constructor; [|constructor]. eexists. split; [reflexivity|]. intros E. apply app_eq_nil in E as [_ E]. discriminate E.
  - exact full_followable.
  - intros (m & Hin & Hf). cbn in Hin. destruct Hin as [<-|[<-|[<-|[<-|[]]]]]; exact Hf.
  - exists c. auto.
Qed.

(** C29: TLS 1.2, a suite and a group that were not offered, the random bytes of a HelloRetryRequest. *)
Example C29_any_case : code_point toy = 0x1301%N /\ In 0x1303%N (map fst iana_cipher_suite) /\ In 0x001d%N (map fst iana_named_group) /\
  length retry_random = 32 /\ fits 1 [x01; x02] /\ (exists dhe, c_dh toy (p_secret full_provider) (x_share full_exchange) = Some dhe) /\
  320 + length (x_share full_exchange) <= 400 /\ hash_len toy + 27 <= 400 /\ hash_len toy <= 64 /\
  hello_choice (Some 0x0303%N) 0x001d (x_share full_exchange) = [(43%N, [x03; x03]); (51%N, uint 2 0x001d ++ vec 2 (x_share full_exchange))].
Proof.
  split; [reflexivity|]. split; [cbn; tauto|]. split; [cbn; tauto|]. split; [reflexivity|]. split; [reflexivity|].
  split; [eexists; vm_compute; reflexivity|]. split; [vm_compute; lia|]. split; [vm_compute; lia|]. split; [vm_compute; lia|reflexivity].
Qed.

(** C44: the Certificate of that handshake, of which a record brings a part. *)
Example C44_cut_case : forall c0 k more, 0 < k -> k < length full_cert ->
  cn_new toy (zeros 400) (zeros 300) [RxData (started (rfc_record toy (x_skey full_exchange) (x_siv full_exchange) 1 ty_handshake (firstn k full_cert) 0 ++ more))] silent = Ok c0 ->
  exists e c, cn_open toy full_provider small_config 0 c0 = (Err e, c) /\ faulty toy (firstn k full_cert) e.
Proof.
  intros c0 k more Hk0 Hk Hnew. destruct full_hypotheses as (_ & _ & Hsz & Ht & Hsec & _).
  destruct (C44_cut_refuted nat toy full_provider small_config (zeros 300) silent 0 1 toy_ok eq_refl Hsz (Forall_nil _) (Forall_nil _) Ht) as (hello & Hpin & Hgo).
  pose proof (full_hello_pinned hello Hpin) as Hx.
  assert (Hlc : length full_cert <= 40) by (vm_compute; lia).
  destruct full_understood as [_ H2]. rewrite Forall_forall in H2. assert (Hu := proj1 (H2 (nth 2 full_before ([], M_NewSessionTicket)) ltac:(right; right; now left))). cbn [nth full_before fst snd] in Hu.
  refine (Hgo (zeros 400) _ c0 full_exchange (firstn 2 (x_msgs full_exchange)) 1%N 1 [] 1 full_cert _ k 0 more Hnew _ Hx Hsec (mt_nil _ _ _ _ _) Hu Hk0 Hk _ _ _).
  - constructor; [|constructor]. eexists. split; [reflexivity|]. unfold started. intros E. apply app_eq_nil in E as [E _]. vm_compute in E. discriminate E.
  - change (length (raw [])) with 0. change (length (zeros 400)) with 400. lia.
  - change (length (raw [])) with 0. lia.
  - unfold stream. cbn [map concat]. rewrite app_nil_r. exact (full_begun _).
Qed.

(** C39: the client of ToyPki.v, with pki.rs; a CertificateVerify after the ServerHello. *)
Definition early_proof : bytes := clear_record (x_shello full_exchange) ++ clear_record (cv_message 0x0403 [x01; x02]).
Example C39_any_case : forall c0, cn_new toy (zeros 400) (zeros 300) [RxData early_proof] silent = Ok c0 ->
  exists c, cn_open toy z_provider small_config pv_new c0 = (Panic PUnwrap, c).
Proof.
  intros c0 Hnew.
  destruct (C39_any_refuted toy z_provider small_config (zeros 300) silent pv_new (snd (pv_set_hostname [x61] pv_new)) toy_ok eq_refl) as (hello & Hpin & Hgo).
  - apply Nat.leb_le. vm_compute. reflexivity.
  - constructor.
  - constructor.
  - reflexivity.
  - left. exists z_lib, z_features, z_ca, (Some 5%N), 100. repeat split.
  - reflexivity.
  - assert (Hx : x_hello full_exchange = hello).
    { destruct (Hpin _ _ _ z_start_new) as [evs E]. rewrite z_conn_opened in E. cbn [snd] in E.
      assert (Hs : exists evs', sent_log z_conn = goes_out (SpecHandshake.hello_record (x_hello full_exchange)) ++ evs') by (eexists; reflexivity).
      destruct Hs as [evs' Hs]. rewrite Hs in E. exact (goes_out_inj _ _ _ _ E). }
    destruct full_hypotheses as (_ & _ & _ & _ & Hsec & _).
    apply (Hgo (zeros 400) [RxData early_proof] c0 full_exchange [] 0%N (snd (pv_set_hostname [x61] pv_new)) 0x0403%N [x01; x02] [] Hnew); auto.
    + constructor; [|constructor]. eexists. split; [reflexivity|]. vm_compute. discriminate.
    + cbn. tauto.
    + apply Nat.leb_le. vm_compute. reflexivity.
    + reflexivity.
    + destruct full_understood as [H1 _]. exists (fst (clear_pair (x_shello full_exchange))), [], [].
      split; [reflexivity|]. split; [split; reflexivity|]. split; [reflexivity|]. split; [exact H1|]. split; [apply full_followable|].
      split; [constructor|]. split; [constructor|]. split; [intros (m & [] & _)|]. split; [|split; reflexivity].
      constructor; [|constructor]. apply Nat.leb_le. vm_compute. reflexivity.
Qed.

Print Assumptions C25_clear_refuted.
Print Assumptions C28_clear_refuted.
Print Assumptions C29_any_refuted.
Print Assumptions C39_any_refuted.
Print Assumptions C44_cut_refuted.
