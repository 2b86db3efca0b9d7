(** * C72: the HelloRetryRequest *)
From Coq Require Import String List NArith Arith Bool Lia ZArith.
From Coq.Strings Require Import Byte.
From Coq Require Import ZifyBool ZifyNat ZifyN.
From Verif Require Import Base ParseBuffer Codes Extensions Crypto Config Handshake Record WriteBuffer Transport RecordReader ReadBuffer Connection Api
  BaseProofs SpecWire WireProofs SpecCodes SpecMessages ExtProofs SpecKeys SpecRecord RecordProofs SpecSend SpecRead SpecHandshake SpecComplete AcceptProofs
  SpecHello HelloProofs PropHello HsProofs ConnProofs CompleteProofs MessageProofs SpecFailure CaseProofs PropFailure SpecRetry Toy ToyRun ToyServer PropComplete.
Import ListNotations.
Local Open Scope list_scope.

Ltac Zify.zify_post_hook ::= Z.div_mod_to_equations.

(** What the client takes the message for, if it understands it, is a ServerHello with the same known extensions. *)
Lemma hello_taken C v r sid suite comp items b m junk junk' :
  frame_ok (F_ServerHello v r sid suite comp) -> block_ok items ->
  message (F_ServerHello v r sid suite comp) items ++ junk = b ++ junk' -> understood C b m ->
  exists suite' items' xs, m = M_ServerHello suite' items' /\
    block_result grp_server_hello 4 [] items = Ok xs /\ block_result grp_server_hello 4 [] items' = Ok xs.
Proof.
  intros Hf Hb E Hu. destruct (understood_parses C b m Hu) as (h & Hp & Hd).
  destruct (runs_message C _ items Hf Hb [] junk) as [Hr _].
  assert (Ep : at_pos [] (message (F_ServerHello v r sid suite comp) items) junk = at_pos [] b junk').
  { rewrite <- (at_pos_nil [] _ junk), <- (at_pos_nil [] b junk'). now rewrite E. }
  rewrite Ep, (Hp [] junk') in Hr. cbn [fst frame_message msg_group msg_cap] in Hr.
  destruct (block_result grp_server_hello 4 [] items) as [xs|e|s| |] eqn:Ex; try discriminate Hr. cbn [omap built] in Hr.
  injection Hr as ->. unfold denotes in Hd. destruct m as [su its| | | | | |]; try contradiction. eauto 8.
Qed.

Lemma retry_no_share items g share : Forall retry_item items -> ~ share_of items g share.
Proof.
  intros HF (pre & post & junk & -> & _ & _). rewrite Forall_app in HF. destruct HF as [_ HF]. pose proof (Forall_inv HF) as H.
  remember (51%N, uint 2 g ++ vec 2 share ++ junk) as i eqn:Ei in H. revert Ei. destruct H as [|ck H1 H2|g' H|t b H]; intros Ei;  apply pair_equal_spec in Ei as [E1 E2]; try discriminate E1.
  - apply (f_equal (@length byte)) in E2. rewrite !app_length, !vec_length, !uint_length in E2. lia.
  - subst t. apply H. cbn. auto 60.
Qed.

Lemma share_same items items' xs g share : block_result grp_server_hello 4 [] items = Ok xs -> block_result grp_server_hello 4 [] items' = Ok xs ->
  share_of items' g share -> exists g', share_of items g' share.
Proof. intros H H' Hs. destruct (share_present items' xs g share H' Hs) as [g' Hg]. eauto using share_of_block. Qed.

Lemma retry_frame sid suite : fits 1 sid -> In suite (map fst iana_cipher_suite) -> frame_ok (F_ServerHello 0x0303 retry_random sid suite 0).
Proof. intros H1 H2. repeat split; auto. Qed.

(** RFC 8446 lets a server answer the ClientHello with a HelloRetryRequest: to ask for a key share of another group or for a
    cookie; the client then sends a second ClientHello.  No client of this library does.  Whatever HelloRetryRequest
    comes as the first record: [open] fails, and the ClientHello is all it sent. *)
Theorem C72_refuted : forall V C (p : provider V) cfg wbuf tx v v0, crypto_ok C -> length (p_random p) = 32 ->
  hello_size cfg (length (c_pub C (p_secret p))) (hash_len C) <= length wbuf ->
  Forall (eq WrOk) (tx_wr tx) -> Forall (eq FlOk) (tx_fl tx) -> told p cfg v v0 ->
  exists hello, forall rbuf rx c0 sid suite items msg h junk rest, cn_new C rbuf wbuf rx tx = Ok c0 -> chunked rx ->
    retry_request sid suite items msg -> stream rx = h ++ (msg ++ junk) ++ rest ->
    framed h (msg ++ junk) -> hd_error h = Some ty_handshake -> length (msg ++ junk) <= length rbuf ->
    exists e c, cn_open C p cfg v c0 = (Err e, c) /\ sent_log c = tx_log tx ++ goes_out (SpecHandshake.hello_record hello).
Proof.
  intros V C p cfg wbuf tx v v0 HC Hr Hs H1 H2 Ht. destruct (C53_first V C p cfg wbuf tx v v0 HC Hr Hs H1 H2 Ht) as (hello & H).
  exists hello. intros rbuf rx c0 sid suite items msg h junk rest Hnew Hch (Hri & Hb & Hsid & Hsu & ->) Hst Hf Hh Hl.
  destruct (H rbuf rx c0 Hnew Hch) as (_ & HB).
  destruct (bytes_cases C (message (F_ServerHello 0x0303 retry_random sid suite 0) items ++ junk)) as [[e Hun]|(b & m & junk' & E & Hu)].
  - exists e. apply (HB h _ rest e Hst Hf Hl). now apply ff_faulty.
  - destruct (hello_taken C _ _ _ _ _ items b m junk junk' (retry_frame sid suite Hsid Hsu) Hb E Hu) as (su' & its' & xs & -> & X1 & X2).
    exists InvalidKeyShare. apply (HB h _ rest InvalidKeyShare Hst Hf Hl). rewrite E. eapply ff_share; [exact Hh|exact Hu|].
    intros g share Hso. destruct (share_same items its' xs g share X1 X2 Hso) as [g' Hg]. now apply retry_no_share in Hg.
Qed.

(** If it asks for a cookie only, as a server that keeps no state does (RFC 8446 section 4.2.2), the error is InvalidKeyShare: the
    client takes it for a ServerHello without a key share. *)
Theorem C72_cookie : forall V C (p : provider V) cfg wbuf tx v v0, crypto_ok C -> length (p_random p) = 32 ->
  hello_size cfg (length (c_pub C (p_secret p))) (hash_len C) <= length wbuf ->
  Forall (eq WrOk) (tx_wr tx) -> Forall (eq FlOk) (tx_fl tx) -> told p cfg v v0 ->
  forall rbuf rx c0 sid suite items msg h junk rest, cn_new C rbuf wbuf rx tx = Ok c0 -> chunked rx ->
    retry_request sid suite items msg -> (forall b, ~ In (51%N, b) items) -> length items <= 4 -> stream rx = h ++ (msg ++ junk) ++ rest ->
    framed h (msg ++ junk) -> hd_error h = Some ty_handshake -> length (msg ++ junk) <= length rbuf ->
    exists c, cn_open C p cfg v c0 = (Err InvalidKeyShare, c).
Proof.
  intros V C p cfg wbuf tx v v0 HC Hr Hs H1 H2 Ht rbuf rx c0 sid suite items msg h junk rest Hnew Hch (Hri & Hb & Hsid & Hsu & ->) Hno Hn Hst Hf Hh Hl.
  destruct (C53_first V C p cfg wbuf tx v v0 HC Hr Hs H1 H2 Ht) as (hello & H). destruct (H rbuf rx c0 Hnew Hch) as (_ & HB).
  destruct (HB h _ rest InvalidKeyShare Hst Hf Hl) as (c & Hc & _); [|eauto].
  eapply ff_share with (suite := suite) (items := items); [exact Hh| |intros g share Hso; now apply retry_no_share in Hso].
  split.
  - eexists (uint 3 _), _. split; [apply uint_length|]. split; [|reflexivity].
    exists 0x0303%N, retry_random, sid, 0%N. split; [now apply retry_frame|]. split; [exact Hb|reflexivity].
  - split.
    + intros t b Hin. unfold recognised_items in Hin. apply filter_In in Hin as [Hin Hk]. rewrite Forall_forall in Hri. pose proof (Hri _ Hin) as Hi.
      remember (t, b) as i eqn:Ei in Hi. revert Ei. destruct Hi as [|ck K1 K2|g K|t' b' K]; intros Ei; apply pair_equal_spec in Ei as [<- <-].
      * split; [cbn; auto 10|]. cbn [content_ok]. rewrite uint_length. lia.
      * split; [cbn; auto 10|exact I].
      * destruct (Hno _ Hin).
      * exfalso. cbn [fst] in Hk. apply existsb_exists in Hk as (y & Hy & Ey). apply N.eqb_eq in Ey. subst y. now apply K.
    + unfold recognised_items. etransitivity; [|exact Hn]. clear. induction items as [|i items IH]; cbn [filter length]; [lia|]. destruct (existsb _ _); cbn [length]; lia.
Qed.

(** ** Concrete cases *)

(** A server that wants its cookie back, and one that wants a share of x25519. *)
Definition wants_cookie : list ext_item := [(43%N, uint 2 0x0304); (44%N, vec 2 [x0c; x00; x01])].
Definition wants_group : list ext_item := [(43%N, uint 2 0x0304); (51%N, uint 2 0x001d)].
Definition retry_wire (items : list ext_item) : bytes := plain_handshake (message (F_ServerHello 0x0303 retry_random [] 0x1301 0) items).

Lemma retry_cases items : items = wants_cookie \/ items = wants_group ->
  retry_request [] 0x1301 items (message (F_ServerHello 0x0303 retry_random [] 0x1301 0) items).
Proof.
  assert (V2 : fits 1 [] /\ In 0x1301%N (map fst iana_cipher_suite)) by (split; [reflexivity|cbn; auto]).
  destruct V2 as [A B]. intros [-> | ->]; (split; [|split; [split; [repeat constructor|reflexivity]|auto]]).
  - constructor; [apply ri_versions|]. constructor; [apply ri_cookie; [discriminate|reflexivity]|constructor].
  - constructor; [apply ri_versions|]. constructor; [apply ri_group; reflexivity|constructor].
Qed.

Example C72_case : forall items, items = wants_cookie \/ items = wants_group ->
  exists c0 e c, cn_new toy (zeros 400) (zeros 300) [RxData (retry_wire items)] silent = Ok c0 /\
    cn_open toy full_provider small_config 0 c0 = (Err e, c) /\ (items = wants_cookie -> e = InvalidKeyShare).
Proof.
  intros items Hi. pose proof (retry_cases items Hi) as Hq.
  destruct full_hypotheses as (_ & _ & Hsz & Ht & _).
  destruct (cn_new toy (zeros 400) (zeros 300) [RxData (retry_wire items)] silent) as [c0|e|x| |] eqn:E0; try (destruct Hi as [-> | ->]; discriminate E0).
  exists c0. set (msg := message (F_ServerHello 0x0303 retry_random [] 0x1301 0) items) in *.
  assert (Hs : stream [RxData (retry_wire items)] = firstn 5 (retry_wire items) ++ (msg ++ []) ++ []) by (destruct Hi as [-> | ->]; reflexivity).
  assert (Hf : framed (firstn 5 (retry_wire items)) (msg ++ [])) by (destruct Hi as [-> | ->]; split; reflexivity).
  assert (Hh : hd_error (firstn 5 (retry_wire items)) = Some ty_handshake) by reflexivity.
  assert (Hl : length (msg ++ []) <= length (zeros 400)) by (destruct Hi as [-> | ->]; vm_compute; lia).
  assert (Hch : chunked [RxData (retry_wire items)]) by (constructor; [|constructor]; eexists; (split; [reflexivity|discriminate])).
  destruct Hi as [-> | ->].
  - assert (Hno : forall b, ~ In (51%N, b) wants_cookie) by (intros b [H|[H|[]]]; apply pair_equal_spec in H as [H _]; discriminate H).
    destruct (C72_cookie nat toy full_provider small_config (zeros 300) silent 0 1 toy_ok eq_refl Hsz (Forall_nil _) (Forall_nil _) Ht
      _ _ c0 [] 0x1301%N _ msg _ [] [] E0 Hch Hq Hno ltac:(cbn; lia) Hs Hf Hh Hl) as [c Hc].
    exists InvalidKeyShare, c. auto.
  - destruct (C72_refuted nat toy full_provider small_config (zeros 300) silent 0 1 toy_ok eq_refl Hsz (Forall_nil _) (Forall_nil _) Ht) as (hello & H).
    destruct (H _ _ c0 [] 0x1301%N _ msg _ [] [] E0 Hch Hq Hs Hf Hh Hl) as (e & c & Hc & _). exists e, c. split; [reflexivity|]. split; [exact Hc|]. discriminate.
Qed.

Print Assumptions C72_refuted.
Print Assumptions C72_cookie.
