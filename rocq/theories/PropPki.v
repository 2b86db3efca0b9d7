(** * Theorems on certificates: C37, C38, C39, C46, C47, C48, C49 *)
From Coq Require Import String List NArith Arith Bool Lia.
From Coq.Strings Require Import Byte.
From Verif Require Import Base ParseBuffer Buffer Codes Extensions Crypto KeySchedule Config Handshake
  Record WriteBuffer Transport RecordReader ReadBuffer Connection Api Pki WebPki
  BaseProofs SpecWire SpecMessages SpecKeys SpecRecord SpecRead SpecSend SpecHandshake SpecPki
  NameProofs Utf8Proofs PkiProofs VerifyProofs Toy ToyRun ToyServer ToyPki PropHandshake.
Import ListNotations.
Local Open Scope list_scope.

(** ** C37: host names *)

(** For all strings: the matcher accepts exactly the equal texts and the one wildcard form,
    with empty labels allowed. *)
Theorem C37_match : forall cn host, tls_hostname_match_impl cn host = true <-> text_match cn host.
Proof. exact match_spec. Qed.

(** For a host that is a DNS name this is RFC 6125.  Missing: hosts with empty labels. *)
Theorem C37_rfc_partial : forall cn host labels, dns_name labels host ->
  (tls_hostname_match_impl cn host = true <-> rfc_match cn host).
Proof. intros cn host hl H. rewrite match_spec. exact (rfc_spec cn host hl H). Qed.

(** A certificate is for the host iff one of its names is. *)
Theorem C37_names : forall cn sans host,
  tls_hostname_match (mk_names cn sans) host = true <-> host_ok host cn sans.
Proof. intros. apply (names_spec (mk_names cn sans) host). Qed.

(** The wildcard stands for an empty label, too... *)
Theorem C37_refuted_label : exists cn host, tls_hostname_match_impl cn host = true /\ ~ rfc_match cn host.
Proof.
  exists (ascii "*.example.com"), (ascii ".example.com"). split; [reflexivity|].
  intros (hl & (Hne & Hl & E) & _). destruct hl as [|l hl]; [now apply Hne|].
  inversion Hl as [|? ? [Hl1 Hl2] _]; subst. destruct l as [|b l]; [now apply Hl1|].
  inversion Hl2 as [|? ? Hb _]; subst.
  assert (b = x2e) as ->.
  { destruct hl; cbn [dotted app] in E; apply (f_equal (@hd_error _)) in E; cbn in E; congruence. }
  unfold ldh in Hb. cbn in Hb. lia.
Qed.

(** ...for every wildcard name there is: [*.] and a DNS name of two or more labels. *)
Theorem C37_empty_label_refuted : forall labels suffix, dns_name labels suffix -> 2 <= length labels ->
  tls_hostname_match_impl (star :: dot :: suffix) (dot :: suffix) = true /\ ~ rfc_match (star :: dot :: suffix) (dot :: suffix).
Proof.
  intros labels suffix (Hne & Hl & ->) H2. split.
  - apply C37_match. right. exists (dotted labels), [], (dotted labels).
    assert (Ht : dns_text (dotted labels)).
    { clear Hne H2. induction Hl as [|l ls [_ Hl1] _ IH]; [constructor|]. destruct ls as [|l2 ls]; cbn [dotted] in *.
      - eapply Forall_impl; [|exact Hl1]. auto.
      - apply Forall_app. split; [eapply Forall_impl; [|exact Hl1]; auto|]. constructor; [now right|exact IH]. }
    split; [reflexivity|]. split; [reflexivity|]. split; [constructor|]. split; [exact Ht|]. split.
    { destruct labels as [|l1 [|l2 ls]]; cbn [length] in H2; try lia. cbn [dotted]. apply in_or_app. right. now left. }
    split; [exact Ht|]. clear; induction (dotted labels); constructor; [unfold same_letter; auto|assumption].
  - intros (hl & (Hn & Hh & E) & _). destruct hl as [|l hl]; [now apply Hn|].
    inversion Hh as [|? ? [Hl1 Hl2] _]; subst. destruct l as [|b l]; [now apply Hl1|].
    inversion Hl2 as [|? ? Hb _]; subst. assert (b = dot) as ->.
    { destruct hl; cbn [dotted app] in E; apply (f_equal (@hd_error _)) in E; cbn in E; congruence. }
    unfold ldh in Hb. cbn in Hb. lia.
Qed.

(** ...and the common name counts whatever subject alternative names there are. *)
Theorem C37_refuted_common_name : forall cn sans host,
  text_match cn host -> tls_hostname_match (mk_names (Some cn) sans) (Some host) = true.
Proof. intros cn sans host H. apply C37_names. right. eauto. Qed.

Example match_meets : dns_name [ascii "www"; ascii "example"; ascii "com"] (ascii "www.example.com") /\
  rfc_match (ascii "*.EXAMPLE.com") (ascii "www.example.com") /\ ~ rfc_match (ascii "*.com") (ascii "example.com").
Proof.
  assert (H : dns_name [ascii "www"; ascii "example"; ascii "com"] (ascii "www.example.com")).
  { split; [discriminate|]. split; [|reflexivity]. repeat constructor; try discriminate; unfold ldh; cbn; lia. }
  assert (H2 : dns_name [ascii "example"; ascii "com"] (ascii "example.com")).
  { split; [discriminate|]. split; [|reflexivity]. repeat constructor; try discriminate; unfold ldh; cbn; lia. }
  split; [exact H|]. split; [apply (C37_rfc_partial _ _ _ H); reflexivity|].
  rewrite <- (C37_rfc_partial _ _ _ H2). discriminate.
Qed.
Example common_name_meets : text_match (ascii "evil.example") (ascii "evil.example") /\ ~ text_match (ascii "good.example") (ascii "evil.example").
Proof. split; [now apply match_spec|]. rewrite <- match_spec. discriminate. Qed.

(** ** C48: the names *)

Theorem C48_common_name : forall c cn, extract_common_name c = Some cn <-> is_common_name c cn.
Proof. exact common_name_spec. Qed.

Theorem C48_sans : forall L c sans, pki_ok L -> extract_san_dns_names L c = Ok sans -> are_sans L c sans.
Proof. intros L c sans HL. exact (sans_sound L HL c sans). Qed.

Theorem C48_sans_complete_partial : forall L c all, pki_ok L -> good_sans L c all -> length all <= 3 ->
  extract_san_dns_names L c = Ok all.
Proof. intros L c all HL H Hl. rewrite (sans_complete L HL c all H). now rewrite firstn_all2. Qed.

(** The fourth dNSName is not looked at: a certificate for it is refused. *)
Theorem C48_refuted : forall L c a1 a2 a3 more h, pki_ok L -> good_sans L c (a1 :: a2 :: a3 :: more) -> is_common_name c None ->
  ~ text_match a1 h -> ~ text_match a2 h -> ~ text_match a3 h ->
  exists sans, extract_san_dns_names L c = Ok sans /\ extract_common_name c = Some None /\
    tls_hostname_match (mk_names None sans) (Some h) = false.
Proof.
  intros L c a1 a2 a3 more h HL H Hn H1 H2 H3. exists [a1; a2; a3].
  split; [exact (sans_complete L HL c _ H)|]. split; [now apply common_name_spec|].
  destruct (tls_hostname_match (mk_names None [a1; a2; a3]) (Some h)) eqn:E; [|reflexivity].
  apply C37_names in E. destruct E as [(s & Hs & Hm)|(x & Hx & _)]; [|discriminate].
  destruct Hs as [<-|[<-|[<-|[]]]]; contradiction.
Qed.

Definition four_names : dcert :=
  mk_dcert (UtcTime 0) (UtcTime 9) [] (Some [x01])
    (Some [([x55; x1d; x0f], (x03, [x07])); (object_id [2; 5; 29; 17]%N, (x04, [x30; x0e; x82; x01; x61; x87; x00; x82; x01; x62; x82; x01; x63; x82; x01; x64]))])
    (ecdsa_with 2) None.
Example names_meet : good_sans z_lib four_names [[x61]; [x62]; [x63]; [x64]] /\ is_common_name four_names None /\
  ~ text_match [x61] [x64] /\ ~ text_match [x62] [x64] /\ ~ text_match [x63] [x64].
Proof.
  split; [|split; [repeat split; constructor|rewrite <- !match_spec; repeat split; discriminate]].
  cbn [good_sans four_names dc_extensions].
  exists [[(x82, [x61]); (x87, []); (x82, [x62]); (x82, [x63]); (x82, [x64])]]. split; [|split; [reflexivity|]].
  - cbn. constructor; [|constructor]. split; [reflexivity|].
    exists [x82; x01; x61; x87; x00; x82; x01; x62; x82; x01; x63; x82; x01; x64], []. split; [reflexivity|].
    eapply (el_one _ _ x82 [x61]); [reflexivity|]. eapply (el_one _ _ x87 []); [reflexivity|].
    eapply (el_one _ _ x82 [x62]); [reflexivity|]. eapply (el_one _ _ x82 [x63]); [reflexivity|].
    eapply (el_one _ _ x82 [x64] []); [reflexivity|]. constructor.
  - repeat (constructor; [split; [apply utf8_spec; reflexivity|cbn; lia]|]). constructor.
Qed.

(** ** C38: chains *)

(** A list of certificates is accepted only if each is in force and signed by the next, the last
    by the authority, and the first is for the host. *)
Theorem C38_sound : forall L F ca now size tr c certs s s', pki_ok L -> ce_entries c = map CE_X509 certs ->
  pv_verify_certificate L F (CE_X509 ca) now size tr c s = (Ok tt, s') ->
  chained L F now ca certs /\ leaf_for L (pv_host s) certs.
Proof. intros L F ca now size tr c certs s s' HL He H. destruct (cert_accepted L F ca now size tr c certs s s' HL He H) as (H1 & H2 & _). auto. Qed.

(** And it is accepted whenever that holds, the names are well-formed, and there is room. *)
Theorem C38_complete : forall L F ca now size tr c certs s leaf rest dc cn all, pki_ok L -> ce_entries c = map CE_X509 certs ->
  certs = leaf :: rest -> chained L F now ca certs ->
  Forall (fun d => exists dc cn all, k_cert L d = Some dc /\ is_common_name dc cn /\ good_sans L dc all) certs ->
  k_cert L leaf = Some dc -> is_common_name dc cn -> good_sans L dc all -> host_ok (pv_host s) cn (firstn 3 all) ->
  length (ce_context c) <= 256 -> length (ce_raw c) <= size ->
  fst (pv_verify_certificate L F (CE_X509 ca) now size tr c s) = Ok tt.
Proof.
  intros L F ca now size tr c certs s leaf rest dc cn all HL He Ec Hch Hall Hk Hcn Hs Hh H1 H2.
  rewrite (proj2 (cert_call L F ca now size tr c certs s
    (mk_pv (pv_host s) (Some tr) (Some (mk_owned (ce_context c) (ce_raw c)))) HL He)); [reflexivity|].
  split; [|auto]. split; [exact Hch|]. split.
  - eapply Forall_impl; [|exact Hall]. intros d (dc' & cn' & all' & K1 & K2 & K3). exists (mk_names cn' (firstn 3 all')).
    exists dc'. split; [exact K1|]. split; [now apply common_name_spec|now apply sans_complete].
  - exists (mk_names cn (firstn 3 all)). subst certs. split; [|exact Hh].
    exists dc. split; [exact Hk|]. split; [now apply common_name_spec|now apply sans_complete].
Qed.

(** With a raw public key for an authority no certificate is accepted. *)
Theorem C38_raw_key : forall L F k now size tr c s s',
  pv_verify_certificate L F (CE_RawPublicKey k) now size tr c s = (Ok tt, s') -> ce_entries c = [] /\ pv_host s = None.
Proof.
  intros L F k now size tr c s s'. unfold pv_verify_certificate, chain_new. rewrite chain_loop_S. unfold chain_next. cbn [ch_left ch_entries ch_prev].
  destruct (ce_entries c) as [|e es] eqn:E; cbn [length obind].
  - destruct (pv_host s); [discriminate|auto].
  - destruct (index (e :: es) (length es)) as [d| | | |]; cbn [obind]; discriminate.
Qed.

(** A host name of more than 64 bytes cannot be set; an [open] that needs one fails. *)
Theorem C38_host_set : forall h s s', pv_set_hostname h s = (Ok tt, s') -> pv_host s' = Some h.
Proof. intros h s s'. unfold pv_set_hostname. destruct (length h <=? HOSTNAME_MAXLEN); [|discriminate]. intros H. apply pair_equal_spec in H as [_ <-]. reflexivity. Qed.

Definition z_list : cert_ref := Eval vm_compute in
  match fst (parse_certificate (pb_new (skipn 4 z_certificate))) with Ok c => c | _ => mk_cert [] [] [] end.
Definition z_told : pki_state := mk_pv (Some [x61]) None None.
Example chain_meets : ce_entries z_list = map CE_X509 [z_leaf; z_mid] /\
  pv_verify_certificate z_lib z_features (CE_X509 z_ca) (Some 5%N) 100 [x00] z_list z_told =
    (Ok tt, mk_pv (Some [x61]) (Some [x00]) (Some (mk_owned [] (ce_raw z_list)))).
Proof. split; [reflexivity|]. vm_compute. reflexivity. Qed.
Example chain_holds : chained z_lib z_features (Some 5%N) z_ca [z_leaf; z_mid] /\ leaf_for z_lib (Some [x61]) [z_leaf; z_mid].
Proof. destruct chain_meets as [H1 H2]. exact (C38_sound _ _ _ _ _ _ _ _ _ _ z_ok H1 H2). Qed.
Example complete_meets :
  Forall (fun d => exists dc cn all, k_cert z_lib d = Some dc /\ is_common_name dc cn /\ good_sans z_lib dc all) [z_leaf; z_mid] /\
  exists dc, k_cert z_lib z_leaf = Some dc /\ is_common_name dc None /\ good_sans z_lib dc [[x41]] /\ host_ok (Some [x61]) None (firstn 3 [[x41]]).
Proof.
  assert (H : exists dc, k_cert z_lib z_leaf = Some dc /\ is_common_name dc None /\ good_sans z_lib dc [[x41]] /\ host_ok (Some [x61]) None (firstn 3 [[x41]])).
  { eexists. split; [reflexivity|]. split; [repeat split; constructor|]. split.
    - cbn [good_sans dc_extensions]. exists [[(x82, [x41])]]. split; [|split; [reflexivity|constructor; [split; [apply utf8_spec; reflexivity|cbn; lia]|constructor]]].
      cbn. constructor; [|constructor]. split; [reflexivity|]. exists [x82; x01; x41], []. split; [reflexivity|].
      eapply (el_one _ _ x82 [x41] []); [reflexivity|]. constructor.
    - left. exists [x41]. split; [now left|]. now apply match_spec. }
  split; [|exact H]. destruct H as (dc & H1 & H2 & H3 & _). constructor; [eauto 8|]. constructor; [|constructor].
  eexists _, _, _. split; [reflexivity|]. split; [repeat split; constructor|reflexivity].
Qed.

(** ** C39: the signature of the server *)

(** After a Certificate message that was accepted with the transcript [tr], a CertificateVerify
    is accepted iff the key of its first certificate signed that transcript.  For both hash sizes. *)
Theorem C39_accepts : forall L F C ca now size tr c certs s s1 v p p', crypto_ok C -> hash_len C <= 48 -> pki_ok L ->
  parse_certificate p = (Ok c, p') -> ce_entries c = map CE_X509 certs ->
  pv_verify_certificate L F (CE_X509 ca) now size tr c s = (Ok tt, s1) ->
  (fst (pv_verify_signature L F C v s1) = Ok tt <->
   exists leaf rest, certs = leaf :: rest /\ server_signed L F C leaf tr (sig_scheme_code (cv_scheme v)) (cv_sig v)).
Proof.
  intros L F C ca now size tr c certs s s1 v p p' HC Hh HL Hp He H.
  destruct (cert_accepted L F ca now size tr c certs s s1 HL He H) as (_ & _ & ->).
  rewrite (sig_call L F C v _ HC Hh). cbn [pv_transcript pv_certificate]. split.
  - intros (tr' & o & c' & [= <-] & [= <-] & Hc & Hv). rewrite (parsed_again c p p' Hp) in Hc. injection Hc as <-.
    apply (verify_signature_spec L F _ c v certs He) in Hv as (leaf & r & dc & key & a & Ec & H1 & H2 & H3 & H4).
    exists leaf, r. split; [exact Ec|]. exists dc, key, a. auto.
  - intros (leaf & r & Ec & dc & key & a & H1 & H2 & H3 & H4). exists tr, (mk_owned (ce_context c) (ce_raw c)), c.
    repeat (split; [reflexivity|]). split; [exact (parsed_again c p p' Hp)|].
    apply (verify_signature_spec L F _ c v certs He). exists leaf, r, dc, key, a. auto 6.
Qed.

(** webpki does the same for hashes of at most 32 bytes... *)
Theorem C39_webpki_partial : forall W alloc C ca now size tr c certs s s1 v p p', crypto_ok C -> hash_len C <= 32 ->
  parse_certificate p = (Ok c, p') -> ce_entries c = map CE_X509 certs ->
  wv_verify_certificate W ca now size tr c s = (Ok tt, s1) ->
  (fst (wv_verify_signature W alloc C v s1) = Ok tt <->
   exists leaf rest, certs = leaf :: rest /\ web_signed W alloc C (sig_scheme_code (cv_scheme v)) (cv_sig v) leaf tr).
Proof.
  intros W alloc C ca now size tr c certs s s1 v p p' HC Hh Hp He H.
  apply (web_cert_call W ca now size tr c certs s s1 He) in H as (_ & _ & _ & ->).
  rewrite (web_sig_call W alloc C v _ HC). cbn [pv_transcript pv_certificate]. split.
  - intros (_ & tr' & o & c' & [= <-] & [= <-] & Hc & Hv). rewrite (parsed_again c p p' Hp) in Hc. injection Hc as <-.
    exact (proj1 (web_sig_spec W alloc C tr c v certs He) Hv).
  - intros Hx. split; [exact Hh|]. exists tr, (mk_owned (ce_context c) (ce_raw c)), c.
    repeat (split; [reflexivity|]). split; [exact (parsed_again c p p' Hp)|]. now apply (web_sig_spec W alloc C tr c v certs He).
Qed.

(** ...and with SHA-384 refuses every signature. *)
Theorem C39_sha384_refuted : forall W alloc C v s tr, crypto_ok C -> hash_len C = 48 -> pv_transcript s = Some tr ->
  fst (wv_verify_signature W alloc C v s) = Err EncodeError.
Proof.
  intros W alloc C v s tr HC Hh Ht. unfold wv_verify_signature. cbn [fst]. rewrite Ht. cbn [unwrap obind].
  rewrite (signed_message_spec C tr 130 HC), Hh. reflexivity.
Qed.

(** A CertificateVerify that no Certificate precedes, or that follows another one, makes both
    verifiers panic... *)
Theorem C39_order_refuted : forall L F W alloc C v v' h cert s,
  fst (pv_verify_signature L F C v (mk_pv h None cert)) = Panic PUnwrap /\
  fst (wv_verify_signature W alloc C v (mk_pv h None cert)) = Panic PUnwrap /\
  fst (pv_verify_signature L F C v (snd (pv_verify_signature L F C v' s))) = Panic PUnwrap /\
  fst (wv_verify_signature W alloc C v (snd (wv_verify_signature W alloc C v' s))) = Panic PUnwrap.
Proof. intros. repeat split; reflexivity. Qed.

(** ...and a server can make it happen. *)
Theorem C39_order_refuted_open : exists C L F ca p cfg rx c, crypto_ok C /\ pki_ok L /\
  uses_pki C L F ca (Some 5%N) 100 p /\ cn_new C (zeros 400) (zeros 300) rx silent = Ok c /\
  fst (cn_open C p cfg pv_new c) = Panic PUnwrap.
Proof.
  exists toy, z_lib, z_features, z_ca, z_provider, small_config, z_bad_rx, z_bad_start.
  split; [exact toy_ok|]. split; [exact z_ok|]. split; [repeat split|]. split; [exact z_bad_start_new|exact z_bad_panics].
Qed.

Definition z_tr : bytes := Eval vm_compute in full_hellos ++ empty_ee ++ z_certificate.
Definition z_cv : cert_verify := Eval vm_compute in mk_cv SS_EcdsaSecp256r1Sha256 (z_sign [xcc] (server_signs toy z_tr)).
Definition z_pending : pki_state := mk_pv (Some [x61]) (Some z_tr) (Some (mk_owned [] (ce_raw z_list))).
Example signature_meets : fst (parse_certificate (pb_new (skipn 4 z_certificate))) = Ok z_list /\
  pv_verify_certificate z_lib z_features (CE_X509 z_ca) (Some 5%N) 100 z_tr z_list z_told = (Ok tt, z_pending) /\
  fst (pv_verify_signature z_lib z_features toy z_cv z_pending) = Ok tt.
Proof. repeat split; vm_compute; reflexivity. Qed.
Example web_signature_meets :
  wv_verify_certificate z_web (CE_X509 z_mid) (Some 5%N) 100 z_tr z_list z_told = (Ok tt, z_pending) /\
  fst (wv_verify_signature z_web false toy z_cv z_pending) = Ok tt.
Proof. repeat split; vm_compute; reflexivity. Qed.

(** ** C46: webpki *)

Theorem C46_certificate : forall W ca now size tr c certs s, ce_entries c = map CE_X509 certs ->
  (fst (wv_verify_certificate W ca now size tr c s) = Ok tt <->
   web_good W now ca (pv_host s) certs /\ length (ce_context c) <= 256 /\ length (ce_raw c) <= size).
Proof.
  intros W ca now size tr c certs s He. split.
  - destruct (wv_verify_certificate W ca now size tr c s) as [o s'] eqn:E. cbn [fst]. intros ->.
    apply (web_cert_call W ca now size tr c certs s s' He) in E. tauto.
  - intros (H1 & H2 & H3). rewrite (proj2 (web_cert_call W ca now size tr c certs s
    (mk_pv (pv_host s) (Some tr) (Some (mk_owned (ce_context c) (ce_raw c)))) He)); [reflexivity|auto].
Qed.

(** The intermediates the server sends make no difference. *)
Theorem C46_refuted_chain : forall W ca now size tr ctx r1 r2 leaf rest1 rest2 s,
  length r1 <= size -> length r2 <= size ->
  fst (wv_verify_certificate W ca now size tr (mk_cert r1 ctx (map CE_X509 (leaf :: rest1))) s) =
  fst (wv_verify_certificate W ca now size tr (mk_cert r2 ctx (map CE_X509 (leaf :: rest2))) s).
Proof.
  intros W ca now size tr ctx r1 r2 leaf rest1 rest2 s H1 H2. unfold wv_verify_certificate, web_verify_certificate, cert_to_owned.
  cbn [map ce_entries ce_context ce_raw]. apply Nat.leb_le in H1, H2. rewrite H1, H2.
  destruct (match ca with CE_X509 a => _ | CE_RawPublicKey _ => _ end) as [[ver hv]| | | |]; cbn [obind]; try reflexivity.
  destruct ver; cbn [negb]; [|reflexivity]. destruct (negb hv && _); [reflexivity|]. cbn [obind]. destruct (length ctx <=? 256); reflexivity.
Qed.

Example web_meets : web_good z_web (Some 5%N) (CE_X509 z_mid) (Some [x61]) [z_leaf; z_mid].
Proof. exists z_mid, z_leaf, [z_mid]. repeat split; reflexivity. Qed.
(** The chain that pki.rs accepts, webpki.rs does not. *)
Example web_refuses : ~ web_good z_web (Some 5%N) (CE_X509 z_ca) (Some [x61]) [z_leaf; z_mid].
Proof. intros (a & l & r & [= <-] & [= <- <-] & _ & _ & H & _). vm_compute in H. discriminate. Qed.

(** ** C47: the whole handshake *)

Lemma told_pki p cfg v v0 : p_has_verifier p = true -> p_set_hostname p = pv_set_hostname -> told p cfg v v0 ->
  pv_host v0 = (match cfg_server_name cfg with Some n => Some n | None => pv_host v end) /\ pv_transcript v0 = pv_transcript v.
Proof.
  intros Hv Hs. unfold told. destruct (cfg_server_name cfg) as [n|]; [|now intros ->]. rewrite Hv, Hs. unfold pv_set_hostname.
  destruct (length n <=? HOSTNAME_MAXLEN); [|discriminate]. intros H. apply pair_equal_spec in H as [_ <-]. auto.
Qed.

(** If [open] succeeds with the verifier of pki.rs, every CertificateVerify of the server follows
    a Certificate whose certificates lead to the authority and whose first is for the server, and
    its key signed the messages up to that Certificate.  Missing: that there is one (C27_refuted,
    C47_refuted). *)
Theorem C47_pki_partial : forall C L F ca now size p cfg v rbuf wbuf rx tx c0 c, crypto_ok C -> hash_len C <= 48 -> pki_ok L ->
  uses_pki C L F ca now size p -> pv_transcript v = None ->
  cn_new C rbuf wbuf rx tx = Ok c0 -> cn_open C p cfg v c0 = (Ok tt, c) ->
  let host := match cfg_server_name cfg with Some n => Some n | None => pv_host v end in
  exists x, flight_in C (stream rx) x (incoming c) /\
    secrets_ok C (option_map fst (cfg_psk cfg)) (p_secret p) x /\ finishes C x /\
    forall before b scheme sg after, x_msgs x = before ++ (b, M_CertificateVerify scheme sg) :: after ->
      proved_by (fun certs => chained L F now ca certs /\ leaf_for L host certs)
        (fun leaf tr => server_signed L F C leaf tr scheme sg) (x_hellos x) before.
Proof.
  intros C L F ca now size p cfg v rbuf wbuf rx tx c0 c HC Hh HL (Hv & Hset & Hvc & Hvs) Ht Hn Ho host.
  destruct (C27_submitted_partial _ C p cfg v rbuf wbuf rx tx c0 c HC Hn Ho Hv) as (x & v0 & v1 & Htold & Hf & Hs & Hfin & Ha).
  exists x. split; [exact Hf|]. split; [exact Hs|]. split; [exact Hfin|]. intros before b scheme sg after E.
  destruct (told_pki p cfg v v0 Hv Hset Htold) as [H1 H2]. fold host in H1. rewrite Ht in H2.
  destruct Hf as (_ & _ & _ & _ & _ & _ & _ & _ & _ & Hr).
  change before with ([] ++ before).
  eapply (flight_proved C p (fun h certs => chained L F now ca certs /\ leaf_for L h certs)
    (fun scheme sg leaf tr => server_signed L F C leaf tr scheme sg)); [| |exact Ha| | | |exact E].
  - intros tr ce certs s s' He Hc. rewrite Hvc in Hc. destruct (cert_accepted L F ca now size tr ce certs s s' HL He Hc) as (K1 & K2 & K3). auto.
  - intros w s s' Hc. rewrite Hvs in Hc.
    assert (Hs' : s' = snd (pv_verify_signature L F C w s)) by now rewrite Hc. split; [exact Hs'|].
    apply (f_equal fst) in Hc. cbn [fst] in Hc. apply (sig_call L F C w s HC Hh) in Hc as (tr & o & ce & K1 & K2 & K3 & K4).
    exists tr, o, ce. repeat (split; [assumption|]). intros certs He.
    apply (verify_signature_spec L F _ ce w certs He) in K4 as (leaf & r & dc & key & a & Ec & J1 & J2 & J3 & J4).
    exists leaf, r. split; [exact Ec|]. exists dc, key, a. auto.
  - eapply Forall_impl; [|exact Hr]. intros m [Hm _]. exact Hm.
  - now rewrite app_nil_r.
  - split; [exact H1|]. rewrite H2. discriminate.
Qed.

Theorem C47_webpki_partial : forall C W alloc ca now size p cfg v rbuf wbuf rx tx c0 c, crypto_ok C ->
  uses_webpki C W alloc ca now size p -> pv_transcript v = None ->
  cn_new C rbuf wbuf rx tx = Ok c0 -> cn_open C p cfg v c0 = (Ok tt, c) ->
  let host := match cfg_server_name cfg with Some n => Some n | None => pv_host v end in
  exists x, flight_in C (stream rx) x (incoming c) /\
    secrets_ok C (option_map fst (cfg_psk cfg)) (p_secret p) x /\ finishes C x /\
    forall before b scheme sg after, x_msgs x = before ++ (b, M_CertificateVerify scheme sg) :: after ->
      hash_len C <= 32 /\
      proved_by (web_good W now ca host) (fun leaf tr => web_signed W alloc C scheme sg leaf tr) (x_hellos x) before.
Proof.
  intros C W alloc ca now size p cfg v rbuf wbuf rx tx c0 c HC (Hv & Hset & Hvc & Hvs) Ht Hn Ho host.
  destruct (C27_submitted_partial _ C p cfg v rbuf wbuf rx tx c0 c HC Hn Ho Hv) as (x & v0 & v1 & Htold & Hf & Hs & Hfin & Ha).
  exists x. split; [exact Hf|]. split; [exact Hs|]. split; [exact Hfin|]. intros before b scheme sg after E.
  destruct (told_pki p cfg v v0 Hv Hset Htold) as [H1 H2]. fold host in H1. rewrite Ht in H2.
  destruct Hf as (_ & _ & _ & _ & _ & _ & _ & _ & _ & Hr).
  assert (Hsig : forall w s s', p_verify_sig p w s = (Ok tt, s') ->
    s' = mk_pv (pv_host s) None (pv_certificate s) /\
    exists tr o ce, pv_transcript s = Some tr /\ pv_certificate s = Some o /\ cert_from_owned o = Ok ce /\
      forall certs, ce_entries ce = map CE_X509 certs -> exists leaf r, certs = leaf :: r /\
        hash_len C <= 32 /\ web_signed W alloc C (sig_scheme_code (cv_scheme w)) (cv_sig w) leaf tr).
  { intros w s s' Hc. rewrite Hvs in Hc.
    assert (Hs' : s' = snd (wv_verify_signature W alloc C w s)) by now rewrite Hc. split; [exact Hs'|].
    apply (f_equal fst) in Hc. cbn [fst] in Hc. apply (web_sig_call W alloc C w s HC) in Hc as (K0 & tr & o & ce & K1 & K2 & K3 & K4).
    exists tr, o, ce. repeat (split; [assumption|]). intros certs He.
    apply (web_sig_spec W alloc C tr ce w certs He) in K4 as (leaf & r & Ec & J). eauto 6. }
  assert (Hp : proved_by (web_good W now ca host)
    (fun leaf tr => hash_len C <= 32 /\ web_signed W alloc C scheme sg leaf tr) (x_hellos x) ([] ++ before)).
  { eapply (flight_proved C p (web_good W now ca) (fun scheme sg leaf tr => hash_len C <= 32 /\ web_signed W alloc C scheme sg leaf tr));
      [|exact Hsig|exact Ha| | | |exact E].
    - intros tr ce certs s s' He Hc. rewrite Hvc in Hc. apply (web_cert_call W ca now size tr ce certs s s' He) in Hc. tauto.
    - eapply Forall_impl; [|exact Hr]. intros m [Hm _]. exact Hm.
    - now rewrite app_nil_r.
    - split; [exact H1|]. rewrite H2. discriminate. }
  destruct Hp as (d1 & b1 & ctx & rw & leaf & chain & d2 & K1 & K2 & K3 & K4 & K5). split; [exact K4|].
  exists d1, b1, ctx, rw, leaf, chain, d2. auto.
Qed.

(** A server that sends neither Certificate nor CertificateVerify is let in, even if no list of
    certificates is good at all. *)
Definition z_no_pki : pki_lib := mk_pki (fun _ => None) z_header (fun _ _ => false) (fun _ _ => false) (fun _ _ _ _ => false).
Definition z_no_web : web_lib := mk_web (fun _ => false) (fun _ => false) (fun _ _ _ _ => false) (fun _ => false) (fun _ _ => false) (fun _ _ _ _ => false).
Definition z_strict : provider pki_state :=
  mk_provider toy_random toy_secret true pv_set_hostname
    (pv_verify_certificate z_no_pki z_features (CE_X509 z_ca) (Some 5%N) 100) (pv_verify_signature z_no_pki z_features toy)
    None (Err Unimplemented) 0.
Definition z_web_strict : provider pki_state :=
  mk_provider toy_random toy_secret true pv_set_hostname
    (wv_verify_certificate z_no_web (CE_X509 z_ca) (Some 5%N) 100) (wv_verify_signature z_no_web false toy)
    None (Err Unimplemented) 0.
Definition z_plain_start : conn := Eval vm_compute in z_fresh [RxData plain_flight].
Theorem C47_refuted : exists C L F p cfg ca rx c0 host, crypto_ok C /\ pki_ok L /\ uses_pki C L F ca (Some 5%N) 100 p /\
  cfg_server_name cfg = Some host /\ cn_new C (zeros 400) (zeros 300) rx silent = Ok c0 /\
  (forall certs, ~ (chained L F (Some 5%N) ca certs /\ leaf_for L (Some host) certs)) /\
  fst (cn_open C p cfg pv_new c0) = Ok tt.
Proof.
  exists toy, z_no_pki, z_features, z_strict, small_config, z_ca, [RxData plain_flight], z_plain_start, [x61].
  split; [exact toy_ok|]. split; [exact (mk_pki_ok z_no_pki (ok_header _ z_ok))|]. split; [repeat split|].
  split; [reflexivity|]. split; [reflexivity|]. split; [|vm_compute; reflexivity].
  intros [|leaf r] [H1 H2]; [discriminate|]. destruct H2 as (c & _ & _ & H2 & _). discriminate.
Qed.
Theorem C47_refuted_webpki : exists C W p cfg ca rx c0, crypto_ok C /\ uses_webpki C W false ca (Some 5%N) 100 p /\
  cfg_server_name cfg <> None /\ cn_new C (zeros 400) (zeros 300) rx silent = Ok c0 /\
  (forall host certs, ~ web_good W (Some 5%N) ca host certs) /\ fst (cn_open C p cfg pv_new c0) = Ok tt.
Proof.
  exists toy, z_no_web, z_web_strict, small_config, (CE_X509 z_ca), [RxData plain_flight], z_plain_start.
  split; [exact toy_ok|]. split; [repeat split|]. split; [discriminate|]. split; [reflexivity|]. split; [|vm_compute; reflexivity].
  intros host certs (a & leaf & r & _ & _ & H & _). discriminate.
Qed.

Example pki_meets : uses_pki toy z_lib z_features z_ca (Some 5%N) 100 z_provider /\ pv_transcript pv_new = None /\
  cn_open toy z_provider small_config pv_new z_start = (Ok tt, z_conn) /\
  uses_webpki toy z_web false (CE_X509 z_mid) (Some 5%N) 100 z_web_provider /\
  cn_open toy z_web_provider small_config pv_new z_start = (Ok tt, z_web_conn).
Proof. split; [repeat split|]. split; [reflexivity|]. split; [exact z_conn_opened|]. split; [repeat split|exact z_web_conn_opened]. Qed.
(** In it the server is proved. *)
Example pki_proved : exists x, flight_in toy (stream z_rx) x (incoming z_conn) /\
  forall before b scheme sg after, x_msgs x = before ++ (b, M_CertificateVerify scheme sg) :: after ->
    proved_by (fun certs => chained z_lib z_features (Some 5%N) z_ca certs /\ leaf_for z_lib (Some [x61]) certs)
      (fun leaf tr => server_signed z_lib z_features toy leaf tr scheme sg) (x_hellos x) before.
Proof.
  destruct (C47_pki_partial toy z_lib z_features z_ca (Some 5%N) 100 z_provider small_config pv_new _ _ _ _ _ _ toy_ok
    (proj1 (Nat.leb_le 32 48) eq_refl) z_ok ltac:(repeat split) eq_refl z_start_new z_conn_opened) as (x & H1 & _ & _ & H2).
  exists x. split; [exact H1|exact H2].
Qed.

(** ** C49: panics *)

(** Whatever certificates a server sends, the verifier returns, unless one of them claims to be
    signed with Ed25519 and its issuer's key is not one of 32 bytes. *)
Theorem C49_certificate_partial : forall L F ca now size tr c certs s, pki_ok L -> ce_entries c = map CE_X509 certs ->
  match fst (pv_verify_certificate L F (CE_X509 ca) now size tr c s) with
  | Ok _ | Err _ => True
  | Panic _ => f_ed25519 F = true /\ exists i der, nth_error certs i = Some der /\ wrong_issuer L (nth (S i) certs ca) der
  | _ => False
  end.
Proof. intros L F ca now size tr c certs s HL He. exact (cert_call_ends L F HL ca now size tr c certs s He). Qed.

(** It does panic then: one certificate that names Ed25519, under any authority with another
    kind of key, is enough.  No signature is needed. *)
Theorem C49_refuted : forall L F ca now size tr c der s dc cn all tbs key, pki_ok L -> f_ed25519 F = true ->
  ce_entries c = [CE_X509 der] -> k_cert L der = Some dc -> is_common_name dc cn -> good_sans L dc all ->
  in_force now dc -> signed_part L der tbs -> dc_alg dc = ed25519 -> key_of L ca key -> length key <> 32 ->
  fst (pv_verify_certificate L F (CE_X509 ca) now size tr c s) = Panic PUnwrap.
Proof.
  intros L F ca now size tr c der s dc cn all tbs key HL HF He Hk Hcn Hs Hi Ht Ha (ci & Hci & Hkey) Hl.
  unfold pv_verify_certificate. rewrite He. cbn [length]. rewrite chain_loop_S. unfold chain_next, chain_new.
  cbn [ch_left ch_entries ch_prev length index nth_error obind]. unfold verify_certificate.
  rewrite Hci, Hk. cbn [ok_or obind]. rewrite Hkey. cbn [ok_or obind].
  rewrite (proj2 (common_name_spec dc cn) Hcn). cbn [ok_or obind]. rewrite (sans_complete L HL dc all Hs). cbn [obind].
  rewrite (proj2 (within_spec now dc) Hi). cbn [obind]. rewrite (proj2 (tlv_spec L HL der tbs) Ht). cbn [ok_or obind].
  rewrite (proj2 (cert_alg_spec F (dc_alg dc) A_Ed25519)).
  - unfold arm_key. destruct (Nat.eqb_spec (length key) 32); [contradiction|]. reflexivity.
  - rewrite Ha. unfold known_algs. rewrite HF. apply in_or_app. right. apply in_or_app. right. now left.
Qed.

(** A CertificateVerify after an accepted Certificate: the verifier returns, unless the scheme is
    Ed25519 and the key not one of 32 bytes, or the scheme is rsa_pss_rsae_sha256 and the key not
    an RSA key. *)
Theorem C49_signature_partial : forall L F C ca now size tr c certs s s1 v p p', crypto_ok C -> hash_len C <= 48 -> pki_ok L ->
  parse_certificate p = (Ok c, p') -> ce_entries c = map CE_X509 certs ->
  pv_verify_certificate L F (CE_X509 ca) now size tr c s = (Ok tt, s1) ->
  match fst (pv_verify_signature L F C v s1) with
  | Ok _ | Err _ => True
  | Panic _ => exists leaf r key, certs = leaf :: r /\ key_of L leaf key /\
      ((f_ed25519 F = true /\ cv_scheme v = SS_Ed25519 /\ length key <> 32) \/
       (f_rsa F = true /\ cv_scheme v = SS_RsaPssRsaeSha256 /\ k_key_ok L A_Pss_256 key = false))
  | _ => False
  end.
Proof.
  intros L F C ca now size tr c certs s s1 v p p' HC Hh HL Hp He H.
  destruct (cert_accepted L F ca now size tr c certs s s1 HL He H) as (_ & _ & ->).
  unfold pv_verify_signature. cbn [fst pv_transcript pv_certificate unwrap obind].
  rewrite (signed_message_spec C tr 146 HC). destruct (Nat.leb_spec (98 + hash_len C) 146); [|lia]. cbn [obind].
  rewrite (parsed_again c p p' Hp). cbn [obind]. exact (verify_signature_ends L F (server_signs C tr) c v certs He).
Qed.

(** It does panic then. *)
Theorem C49_refuted_signature : forall L F C v h tr o c leaf rest key, crypto_ok C -> hash_len C <= 48 ->
  cert_from_owned o = Ok c -> ce_entries c = CE_X509 leaf :: rest -> key_of L leaf key ->
  (f_ed25519 F = true /\ cv_scheme v = SS_Ed25519 /\ length key <> 32) \/
  (f_rsa F = true /\ cv_scheme v = SS_RsaPssRsaeSha256 /\ k_key_ok L A_Pss_256 key = false) ->
  fst (pv_verify_signature L F C v (mk_pv h (Some tr) (Some o))) = Panic PUnwrap.
Proof.
  intros L F C v h tr o c leaf rest key HC Hh Ho He (dc & Hk & Hkey) Hcause.
  unfold pv_verify_signature. cbn [fst pv_transcript pv_certificate unwrap obind].
  rewrite (signed_message_spec C tr 146 HC). destruct (Nat.leb_spec (98 + hash_len C) 146); [|lia]. cbn [obind]. rewrite Ho. cbn [obind].
  unfold verify_signature. rewrite He, Hk. cbn [ok_or obind]. rewrite Hkey. cbn [ok_or obind].
  destruct Hcause as [(HF & -> & Hl)|(HF & -> & Hl)]; unfold scheme_alg; rewrite HF; unfold arm_key_cv, arm_key.
  - destruct (Nat.eqb_spec (length key) 32); [contradiction|]. reflexivity.
  - rewrite Hl. reflexivity.
Qed.

(** The verifier of webpki.rs never panics on a certificate, and on a signature only when no
    certificate is pending. *)
Theorem C49_webpki : forall W alloc C ca now size tr c s v p p', crypto_ok C -> parse_certificate p = (Ok c, p') ->
  settled (fst (wv_verify_certificate W ca now size tr c s)) /\
  forall s1, wv_verify_certificate W ca now size tr c s = (Ok tt, s1) -> settled (fst (wv_verify_signature W alloc C v s1)).
Proof.
  intros W alloc C ca now size tr c s v p p' HC Hp.
  assert (Hw : settled (web_verify_certificate W (pv_host s) ca c now)).
  { unfold web_verify_certificate.
    assert (Hf : forall ver hv, settled (if negb ver then Err InvalidCertificate
      else if negb hv && match pv_host s with Some _ => true | None => false end then Err InvalidCertificate else Ok tt : outcome tls_error unit)).
    { intros [] []; cbn; destruct (pv_host s); exact I. }
    destruct ca as [a|a]; [|apply (Hf false false)]. destruct (w_anchor W a); [|exact I].
    destruct (ce_entries c) as [|[d|d] es]; [apply (Hf false false)| |apply (Hf false false)].
    destruct (w_leaf W d); [|exact I]. cbn [obind]. apply Hf. }
  split.
  - unfold wv_verify_certificate. destruct (web_verify_certificate W (pv_host s) ca c now); cbn [obind]; try exact Hw.
    unfold cert_to_owned. destruct (length (ce_context c) <=? 256); [|exact I]. destruct (length (ce_raw c) <=? size); exact I.
  - intros s1 H. assert (s1 = mk_pv (pv_host s) (Some tr) (Some (mk_owned (ce_context c) (ce_raw c)))) as ->.
    { unfold wv_verify_certificate in H. destruct (web_verify_certificate W (pv_host s) ca c now); cbn [obind] in H; try discriminate.
      unfold cert_to_owned in H. destruct (length (ce_context c) <=? 256); [|discriminate]. destruct (length (ce_raw c) <=? size); [|discriminate].
      apply pair_equal_spec in H as [_ <-]. reflexivity. }
    unfold wv_verify_signature. cbn [fst pv_transcript pv_certificate unwrap obind]. rewrite (signed_message_spec C tr 130 HC).
    destruct (98 + hash_len C <=? 130); [|exact I]. cbn [obind]. rewrite (parsed_again c p p' Hp). cbn [obind].
    unfold web_verify_signature. destruct (ce_entries c) as [|[d|d] es]; try exact I. destruct (w_leaf W d); [|exact I].
    destruct (web_scheme alloc (cv_scheme v)) as [a|]; cbn [ok_or obind]; [|exact I]. destruct (w_verify W a d _ (cv_sig v)); exact I.
Qed.

(** A library in which certificates name Ed25519. *)
Definition z_ed_lib : pki_lib :=
  mk_pki (fun b => option_map (fun c => mk_dcert (dc_not_before c) (dc_not_after c) (dc_subject c) (dc_key c) (dc_extensions c) ed25519 (dc_signature c)) (z_cert b))
    z_header (fun _ k => length k =? 1) (fun _ s => length s =? 5) (fun _ _ _ _ => false).
Example panic_meets : pki_ok z_ed_lib /\ f_ed25519 z_features = true /\
  (exists dc tbs, k_cert z_ed_lib z_mid = Some dc /\ is_common_name dc None /\ good_sans z_ed_lib dc [] /\ in_force (Some 5%N) dc /\
     signed_part z_ed_lib z_mid tbs /\ dc_alg dc = ed25519) /\ key_of z_ed_lib z_ca [xca] /\ length [xca] <> 32.
Proof.
  split; [exact (mk_pki_ok z_ed_lib (ok_header _ z_ok))|]. split; [reflexivity|]. split; [|split; [|discriminate]].
  - eexists _, [x30; x03; xcb; x01; x09]. split; [reflexivity|]. split; [repeat split; constructor|]. split; [reflexivity|].
    split; [cbn; lia|]. split; [|reflexivity].
    exists 10, [x30; x03], [xcb; x01; x09], (skipn 7 z_mid). split; [reflexivity|]. split; reflexivity.
  - eexists. split; reflexivity.
Qed.
Example panic_signature_meets : exists o c rest, cert_from_owned o = Ok c /\ ce_entries c = CE_X509 z_leaf :: rest /\ key_of z_lib z_leaf [xcc].
Proof. exists (mk_owned [] (ce_raw z_list)). eexists _, _. split; [reflexivity|]. split; [reflexivity|]. eexists. split; reflexivity. Qed.

Print Assumptions C37_match.
Print Assumptions C37_rfc_partial.
Print Assumptions C37_names.
Print Assumptions C37_refuted_label.
Print Assumptions C37_empty_label_refuted.
Print Assumptions C37_refuted_common_name.
Print Assumptions C48_common_name.
Print Assumptions C48_sans.
Print Assumptions C48_sans_complete_partial.
Print Assumptions C48_refuted.
Print Assumptions C38_sound.
Print Assumptions C38_complete.
Print Assumptions C38_raw_key.
Print Assumptions C38_host_set.
Print Assumptions C39_accepts.
Print Assumptions C39_webpki_partial.
Print Assumptions C39_sha384_refuted.
Print Assumptions C39_order_refuted.
Print Assumptions C39_order_refuted_open.
Print Assumptions C46_certificate.
Print Assumptions C46_refuted_chain.
Print Assumptions C47_pki_partial.
Print Assumptions C47_webpki_partial.
Print Assumptions C47_refuted.
Print Assumptions C47_refuted_webpki.
Print Assumptions C49_certificate_partial.
Print Assumptions C49_refuted.
Print Assumptions C49_signature_partial.
Print Assumptions C49_refuted_signature.
Print Assumptions C49_webpki.
