(** * C65: what the server says in EncryptedExtensions, and what the client offered *)
From Coq Require Import String List NArith Arith Bool Lia ZArith.
From Coq.Strings Require Import Byte.
From Coq Require Import ZifyBool ZifyNat ZifyN.
From Verif Require Import Base Buffer Codes Extensions Crypto KeySchedule Config Handshake Record WriteBuffer
  Transport RecordReader ReadBuffer Connection Api
  BaseProofs SpecWire WireProofs SpecCodes SpecMessages SpecKeys KeyProofs SpecRecord RecordProofs SpecSend WriteProofs SendProofs SpecHello HelloProofs PropHello
  HsWrite HsProofs ConnProofs SpecRead SpecHandshake SpecComplete CompleteProofs Toy ToyRun ToyServer PropComplete SpecOffers.
Import ListNotations.
Local Open Scope list_scope.

Ltac Zify.zify_post_hook ::= Z.div_mod_to_equations.

Lemma vec_length k b : length (vec k b) = k + length b.
Proof. unfold vec. now rewrite app_length, uint_length. Qed.

Lemma ee_reads C items : block_ok items -> reads_as C (ee_message items) (M_EncryptedExtensions items).
Proof. intros H. exists (uint 3 (N.of_nat (length (ext_block items)))), (ext_block items). split; [apply uint_length|]. split; [split; [exact H|reflexivity]|reflexivity]. Qed.

Lemma fin_reads C v : length v = hash_len C -> reads_as C (fin_message v) (M_Finished v).
Proof. intros H. exists (uint 3 (N.of_nat (length v))), v. split; [apply uint_length|]. split; [split; [exact H|reflexivity]|reflexivity]. Qed.

(** Whatever the client was configured to offer: there is a server that answers with the extensions [ee] - any that the client can decode - and
    with which [open] succeeds.  [shello] is a ServerHello that the client can use; the server sends it, EncryptedExtensions and
    Finished. *)
Theorem C65_any : forall V C (p : provider V) cfg wbuf rbuf tx v v0 shello suite items group share dhe ee,
  crypto_ok C -> length (p_random p) = 32 ->
  hello_size cfg (length (c_pub C (p_secret p))) (hash_len C) <= length wbuf -> hash_len C + 26 <= length wbuf ->
  Forall (eq WrOk) (tx_wr tx) -> Forall (eq FlOk) (tx_fl tx) -> told p cfg v v0 ->
  understood C shello (M_ServerHello suite items) -> share_of items group share -> fits 2 shello -> length shello <= length rbuf ->
  c_dh C (p_secret p) share = Some dhe ->
  block_ok ee -> digestible InEncryptedExtensions ee ->
  length (ee_message ee) + hash_len C + 21 <= length rbuf -> (N.of_nat (length (ee_message ee) + hash_len C + 21) < 65536)%N ->
  exists x, x_shello x = shello /\ x_before x = [(ee_message ee, M_EncryptedExtensions ee)] /\
    secrets_ok C (option_map fst (cfg_psk cfg)) (p_secret p) x /\ finishes C x /\
    forall rx c0, cn_new C rbuf wbuf rx tx = Ok c0 -> chunked rx -> stream rx = flight_wire C x [P_messages (x_msgs x) 0] ->
      exists c evs, cn_open C p cfg v c0 = (Ok tt, c) /\ transport_succeeds c /\
        sent_log c = tx_log tx ++ goes_out (SpecHandshake.hello_record (x_hello x)) ++ evs.
Proof.
  intros V C p cfg wbuf rbuf tx v v0 shello suite items group share dhe ee HC Hrnd Hsz Hw H1 H2 Ht Hu Hso Hf2 Hlr Hdh Hb Hdg Hr Hr16.
  destruct (handshake_succeeds C p cfg wbuf tx v v0 HC Hrnd Hsz (conj H1 H2) Ht) as (hello & _ & Hgo).
  set (before := [(ee_message ee, M_EncryptedExtensions ee)]).
  assert (Hnf : ~ (exists m, In m before /\ is_finished (snd m))) by (intros (m & [<-|[]] & Hm); exact Hm).
  destruct (C44_server_exists C (option_map fst (cfg_psk cfg)) (p_secret p) hello shello suite items group share dhe before HC Hdh Hnf)
    as (x & E1 & E2 & E3 & E4 & E5 & E6 & E7 & E8 & E9 & E10 & Hsec & Hfin).
  exists x. split; [exact E2|]. split; [exact E7|]. split; [exact Hsec|]. split; [exact Hfin|].
  assert (Em : x_msgs x = [(ee_message ee, M_EncryptedExtensions ee); (fin_message (x_verify x), M_Finished (x_verify x))]).
  { unfold x_msgs. now rewrite E7, E8, E10. }
  assert (Hraw : length (raw (x_msgs x)) = length (ee_message ee) + hash_len C + 4).
  { rewrite Em. unfold raw. cbn [map fst concat]. rewrite app_nil_r, app_length. unfold fin_message. rewrite app_length, uint_length, vec_length, E9. lia. }
  assert (Hfol : followable C (length rbuf) x [P_messages (x_msgs x) 0]).
  { unfold followable. rewrite E2, E3, E4, E5, E6. split; [exact Hu|]. split; [exact Hso|]. split; [exact Hf2|]. split; [exact Hlr|].
    split; [unfold parts_msgs; cbn [map part_msgs concat]; now rewrite app_nil_r|].
    split. { rewrite Em. constructor; [|constructor; [|constructor]]; cbn [fst snd].
      - split; [split; [now apply ee_reads|exact Hdg]|exact I].
      - split; [split; [now apply fin_reads|exact I]|exact I]. }
    split; [intros (m & [] & _)|]. split; [|cbn; lia]. constructor; [|constructor]. cbn [part_fits]. rewrite Hraw, (ok_tag_len C HC). lia. }
  intros rx c0 Hnew Hch Hst.
  pose proof (followable_whole C (length rbuf) x [P_messages (x_msgs x) 0] [] HC Hfol) as Hwf. rewrite app_nil_r, <- Hst in Hwf.
  assert (Han : answered x = None) by (unfold answered; now rewrite E7).
  assert (Hvd : exists vd, rfc_verify_data C (x_client x) (x_hellos x ++ raw (x_msgs x)) = Some vd /\ length vd = hash_len C).
  { unfold rfc_verify_data. destruct (expand_label_total C (x_client x) "finished" [] (hash_len C) HC ltac:(lia)) as (k & -> & _).
    eexists. split; [reflexivity|]. apply (ok_hmac_len C HC). }
  destruct Hvd as (vd & Hvd & Hvl).
  destruct (Hgo rbuf rx c0 x [] v0 [fin_message vd] Hnew Hch E1 Hwf Hsec Hfin) as (c & Ho & Hs & _ & _ & _ & Hts & _).
  - intros _. rewrite Em. apply aa_other; [exact I|]. apply aa_other; [exact I|]. constructor.
  - rewrite Han. exact I.
  - rewrite Han. exists vd. auto.
  - constructor; [|constructor]. unfold fin_message. rewrite app_length, uint_length, vec_length, Hvl. lia.
  - exists c. eexists. split; [exact Ho|]. split; [exact Hts|]. rewrite E1. exact Hs.
Qed.

(** Three answers that no client asked for: a heartbeat mode; a protocol that was not offered; a fragment length that was not
    asked for. *)
Definition unasked (cfg : tls_config) : list ext_item :=
  [(15%N, [x01]);
   (16%N, vec 2 (vec 1 (match cfg_alpn cfg with Some names => repeat x7a (S (list_max (map (@length byte) names))) | None => [x7a] end)));
   (1%N, uint 1 (match cfg_max_frag cfg with Some MFL_Bits9 => 4 | _ => 1 end)%N)].

Lemma unasked_all cfg : Forall (fun i => ~ answers_offer cfg i) (unasked cfg).
Proof.
  unfold unasked. constructor; [|constructor; [|constructor; [|constructor]]]; unfold answers_offer; cbn [fst snd].
  - tauto.
  - intros (names & name & -> & Hin & E). assert (El : length name <= list_max (map (@length byte) names)).
    { pose proof (proj1 (list_max_le (map (@length byte) names) _) (le_n _)) as F. rewrite Forall_forall in F. apply F. now apply in_map. }
    apply (f_equal (@length byte)) in E. rewrite !vec_length, repeat_length in E. lia.
  - intros (m & code & -> & Hin & E). cbn [iana_max_frag In] in Hin.
    destruct Hin as [F|[F|[F|[F|[]]]]]; injection F as <- <-; discriminate E.
Qed.

Lemma unasked_digestible cfg : (match cfg_alpn cfg with Some names => list_max (map (@length byte) names) < 255 | None => True end) ->
  block_ok (unasked cfg) /\ digestible InEncryptedExtensions (unasked cfg).
Proof.
  intros Hn. set (nm := match cfg_alpn cfg with Some names => repeat x7a (S (list_max (map (@length byte) names))) | None => [x7a] end).
  assert (Hnm : 0 < length nm <= 255). { unfold nm. destruct (cfg_alpn cfg); [rewrite repeat_length; lia|cbn; lia]. }
  assert (Hu : unasked cfg = [(15%N, [x01]); (16%N, vec 2 (vec 1 nm)); (1%N, uint 1 (match cfg_max_frag cfg with Some MFL_Bits9 => 4 | _ => 1 end)%N)]) by reflexivity.
  rewrite Hu. split.
  - split.
    + constructor; [|constructor; [|constructor; [|constructor]]]; (split; cbn [fst snd]; [lia|]); unfold fits; rewrite ?vec_length, ?uint_length; cbn [length]; lia.
    + unfold fits, items_wire. cbn [map concat]. unfold item_wire. cbn [fst snd]. rewrite ?app_length, ?vec_length, ?uint_length, ?vec_length. cbn [length]. lia.
  - split; [|cbn; lia]. intros t b Hin. unfold recognised_items in Hin. cbn in Hin.
    destruct Hin as [E|[E|[E|[]]]]; injection E as <- <-; (split; [cbn; tauto|]); cbn [content_ok].
    + exact I.
    + exists [nm], []. cbn [map concat]. rewrite !app_nil_r. split; [reflexivity|]. split; [unfold fits; rewrite vec_length; lia|].
      constructor; [|constructor]. split; [intros E; rewrite E in Hnm; cbn in Hnm; lia|unfold fits; lia].
    + eexists _, []. rewrite app_nil_r. split; [reflexivity|]. cbn. destruct (cfg_max_frag cfg) as [[]|]; tauto.
Qed.

(** Whatever the client was configured to offer, [open] succeeds with a server that answers nothing but what was not
    offered. *)
Theorem C65_refuted : forall V C (p : provider V) cfg wbuf rbuf tx v v0 shello suite items group share dhe,
  crypto_ok C -> length (p_random p) = 32 ->
  hello_size cfg (length (c_pub C (p_secret p))) (hash_len C) <= length wbuf -> hash_len C + 26 <= length wbuf ->
  Forall (eq WrOk) (tx_wr tx) -> Forall (eq FlOk) (tx_fl tx) -> told p cfg v v0 ->
  understood C shello (M_ServerHello suite items) -> share_of items group share -> fits 2 shello -> length shello <= length rbuf ->
  c_dh C (p_secret p) share = Some dhe ->
  (match cfg_alpn cfg with Some names => list_max (map (@length byte) names) < 255 | None => True end) ->
  hash_len C + 320 <= length rbuf -> hash_len C <= 64 ->
  exists x b ee, In (b, M_EncryptedExtensions ee) (x_msgs x) /\ ee <> [] /\ Forall (fun i => ~ answers_offer cfg i) ee /\
    secrets_ok C (option_map fst (cfg_psk cfg)) (p_secret p) x /\ finishes C x /\
    forall rx c0, cn_new C rbuf wbuf rx tx = Ok c0 -> chunked rx -> stream rx = flight_wire C x [P_messages (x_msgs x) 0] ->
      exists c, cn_open C p cfg v c0 = (Ok tt, c).
Proof.
  intros V C p cfg wbuf rbuf tx v v0 shello suite items group share dhe HC Hrnd Hsz Hw H1 H2 Ht Hu Hso Hf2 Hlr Hdh Hn Hr Hh.
  destruct (unasked_digestible cfg Hn) as [Hb Hd].
  assert (Hl : length (ee_message (unasked cfg)) <= 299).
  { unfold ee_message, ext_block, items_wire, unasked. cbn [map concat]. unfold item_wire. cbn [fst snd].
    rewrite ?app_length, ?vec_length, ?uint_length, ?app_length, ?vec_length, ?uint_length, ?vec_length. cbn [length].
    destruct (cfg_alpn cfg); rewrite ?repeat_length; cbn [length]; lia. }
  destruct (C65_any V C p cfg wbuf rbuf tx v v0 shello suite items group share dhe (unasked cfg) HC Hrnd Hsz Hw H1 H2 Ht Hu Hso Hf2 Hlr Hdh Hb Hd ltac:(lia) ltac:(lia))
    as (x & E1 & E2 & Hsec & Hfin & Hgo).
  exists x, (ee_message (unasked cfg)), (unasked cfg). split; [unfold x_msgs; rewrite E2; now left|]. split; [discriminate|]. split; [apply unasked_all|].
  split; [exact Hsec|]. split; [exact Hfin|]. intros rx c0 Hnew Hch Hst. destruct (Hgo rx c0 Hnew Hch Hst) as (c & evs & Ho & _). eauto.
Qed.

(** What is checked: every EncryptedExtensions of a server that is let in can be decoded - the recognised extensions may appear there, have a
    proper body and are not too many.  Missing: that they answer what was offered. *)
Theorem C65_form_partial : forall V C (p : provider V) cfg rbuf wbuf rx tx v c0 c, crypto_ok C -> length (p_random p) = 32 ->
  Forall (eq WrOk) (tx_wr tx) -> Forall (eq FlOk) (tx_fl tx) -> chunked rx ->
  cn_new C rbuf wbuf rx tx = Ok c0 -> cn_open C p cfg v c0 = (Ok tt, c) ->
  exists x rest, whole_flight C (length rbuf) (stream rx) x rest /\
    forall b items, In (b, M_EncryptedExtensions items) (x_msgs x) ->
      digestible InEncryptedExtensions items /\ reads_as C b (M_EncryptedExtensions items).
Proof.
  intros V C p cfg rbuf wbuf rx tx v c0 c HC Hrnd H1 H2 Hch Hnew Ho.
  destruct (C51_exactly V C p cfg wbuf tx v HC Hrnd H1 H2) as (hello & _ & Hex). specialize (Hex rbuf rx c0 Hnew Hch).
  rewrite Ho in Hex. destruct (proj1 Hex eq_refl) as (_ & x & rest & v0 & v1 & ms & _ & _ & Hw & _).
  exists x, rest. split; [exact Hw|]. destruct Hw as (h0 & junk & rs & r & ms1 & ms2 & _ & _ & _ & _ & _ & _ & _ & _ & _ & Hf & _).
  intros b items Hin. rewrite Forall_forall in Hf. destruct (Hf _ Hin) as [[A B] _]. cbn [fst snd] in *. auto.
Qed.

(** ** Concrete case *)

Definition alpn_config : tls_config := mk_config (Some [x61]) (Some [[x6d; x71; x74; x74]]) None [SS_EcdsaSecp256r1Sha256] [NG_Secp256r1] (Some MFL_Bits9).

(** C65: the toy client that offers the protocol "mqtt" and asks for fragments of 512 bytes, and its server. *)
Example C65_case : crypto_ok toy /\ length (p_random full_provider) = 32 /\
  hello_size alpn_config (length (c_pub toy (p_secret full_provider))) (hash_len toy) <= 300 /\ hash_len toy + 26 <= 300 /\
  told full_provider alpn_config 0 1 /\
  understood toy (x_shello full_exchange) (M_ServerHello (x_suite full_exchange) (x_items full_exchange)) /\
  share_of (x_items full_exchange) (x_group full_exchange) (x_share full_exchange) /\
  (exists dhe, c_dh toy (p_secret full_provider) (x_share full_exchange) = Some dhe) /\
  unasked alpn_config = [(15%N, [x01]); (16%N, [x00; x06; x05; x7a; x7a; x7a; x7a; x7a]); (1%N, [x04])] /\
  answers_offer alpn_config (1%N, [x01]) /\ answers_offer alpn_config (16%N, [x00; x05; x04; x6d; x71; x74; x74]).
Proof.
  split; [exact toy_ok|]. split; [reflexivity|]. split; [vm_compute; lia|]. split; [vm_compute; lia|]. split; [reflexivity|].
  split; [exact (proj1 full_understood)|]. split; [apply full_followable|]. split; [eexists; vm_compute; reflexivity|]. split; [reflexivity|].
  split; [exists MFL_Bits9, 1%N; repeat split; now left|]. eexists _, [x6d; x71; x74; x74]. repeat split. now left.
Qed.

Print Assumptions C65_any.
Print Assumptions C65_refuted.
Print Assumptions C65_form_partial.
