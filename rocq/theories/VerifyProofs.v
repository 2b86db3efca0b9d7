(** * The built-in verifiers as objects: what a sequence of calls accepts *)
From Coq Require Import String List NArith Arith Bool Lia.
From Coq.Strings Require Import Byte.
From Coq Require Import ZifyBool ZifyNat ZifyN.
From Verif Require Import Base ParseBuffer Codes Extensions Crypto Config Handshake Connection Pki WebPki BaseProofs ParseProofs
  SpecWire SpecCodes SpecMessages SpecKeys WireProofs ReadProofs SpecHandshake AcceptProofs SpecPki NameProofs PkiProofs.
Import ListNotations.
Local Open Scope list_scope.

(** ** Certificate lists have one reading *)

Lemma vec_split k a b x y : fits k a -> fits k b -> vec k a ++ x = vec k b ++ y -> a = b /\ x = y.
Proof.
  intros Ha Hb H. unfold vec in H. rewrite <- !app_assoc in H.
  apply app_len_inj in H as [H1 H2]; [|now rewrite !uint_length].
  apply (f_equal be_val) in H1. rewrite !be_val_uint_small in H1 by assumption.
  apply app_len_inj in H2; [exact H2|lia].
Qed.

Lemma entries_inj : forall e1 e2, Forall entry_ok e1 -> Forall entry_ok e2 ->
  concat (map entry_wire e1) = concat (map entry_wire e2) -> map fst e1 = map fst e2.
Proof.
  induction e1 as [|[d1 i1] e1 IH]; intros [|[d2 i2] e2] H1 H2 H; cbn [map concat fst] in *; try reflexivity.
  - apply (f_equal (@length _)) in H. unfold entry_wire in H. cbn [fst] in H. rewrite !app_length, vec_length in H. cbn [length] in H. lia.
  - apply (f_equal (@length _)) in H. unfold entry_wire in H. cbn [fst] in H. rewrite !app_length, vec_length in H. cbn [length] in H. lia.
  - inversion H1 as [|? ? [Hf1 Hb1] Hr1]; inversion H2 as [|? ? [Hf2 Hb2] Hr2]; subst. cbn [fst snd] in *.
    unfold entry_wire in H at 1 3. cbn [fst snd] in H. rewrite <- !app_assoc in H.
    apply vec_split in H as [-> H]; auto. f_equal.
    unfold ext_block in H. apply vec_split in H as [_ H]; [auto|apply Hb1|apply Hb2].
Qed.

(** The certificate list is parsed again from its raw form. *)
Lemma received_again c certs ctx c' : received c certs -> cert_from_owned (mk_owned ctx (ce_raw c)) = Ok c' ->
  ce_entries c' = map CE_X509 certs.
Proof.
  intros (es & Hok & Hr & -> & He) H. unfold cert_from_owned in H. cbn [co_entries_data co_context] in H.
  destruct (parse_cert_entries 16 (pb_new (ce_raw c))) as [es'| | | |] eqn:Hp; cbn [obind] in H; try discriminate.
  injection H as <-. cbn [ce_entries]. unfold parse_cert_entries in Hp. rewrite pb_new_at in Hp.
  apply cert_entries_acc in Hp as (ens & E & Hens & ->). cbn [app]. rewrite Hr in E.
  apply entries_inj in E; auto. rewrite E, map_map. reflexivity.
Qed.

Lemma map_err_ok {S E E' A} (f : E -> E') (m : M S E A) s a s' : map_err f m s = (Ok a, s') -> m s = (Ok a, s').
Proof. unfold map_err. destruct (m s) as [[x|x|x| |] t]; cbn [omap_err]; intros H; inversion H; reflexivity. Qed.

Lemma parsed_again c p p' : parse_certificate p = (Ok c, p') ->
  cert_from_owned (mk_owned (ce_context c) (ce_raw c)) = Ok c.
Proof.
  unfold parse_certificate. intros H.
  apply bind_ok in H as (cl & p1 & _ & H). apply bind_ok in H as (cx & p2 & _ & H).
  apply bind_ok in H as (el & p3 & _ & H). apply bind_ok in H as (rw & p4 & Hs & H).
  apply bind_ok in H as (es & p5 & He & H). apply pair_equal_spec in H as [H _]. injection H as <-.
  apply map_err_ok in Hs. unfold pb_slice in Hs. apply bind_ok in Hs as (s & p6 & _ & Hs).
  apply pair_equal_spec in Hs as [Hs _]. injection Hs as <-.
  apply pair_equal_spec in He as [He _]. unfold cert_from_owned. cbn [co_entries_data co_context ce_context ce_raw].
  change (pb_as_slice (pb_new s)) with s. now rewrite He.
Qed.

(** ** The signed message *)

Lemma server_ctx_ascii : server_ctx = ascii "TLS 1.3, server CertificateVerify" ++ [x00].
Proof. reflexivity. Qed.

Lemma signed_message_spec C tr cap : crypto_ok C ->
  signed_message cap (c_hash C tr) = if 98 + hash_len C <=? cap then Ok (server_signs C tr) else Err EncodeError.
Proof.
  intros HC. unfold signed_message, server_signs. rewrite repeat_length. change (length server_ctx) with 34.
  rewrite app_length, repeat_length, (ok_hash_len C HC). change (length server_ctx) with 34.
  rewrite server_ctx_ascii, <- !app_assoc. change (byte_of 32) with x20.
  destruct (Nat.leb_spec 64 cap), (Nat.leb_spec (64 + 34) cap), (Nat.leb_spec (64 + 34 + hash_len C) cap),
    (Nat.leb_spec (98 + hash_len C) cap); try lia; reflexivity.
Qed.

Section V.
Context (L : pki_lib) (F : features) (C : crypto).

Lemma scheme_alg_spec s a : scheme_alg F s = Some a <-> In (sig_scheme_code s, a) (known_schemes F).
Proof.
  unfold scheme_alg, known_schemes. destruct F as [p e r]. cbn [f_p384 f_ed25519 f_rsa]. split.
  - destruct s; try discriminate; destruct p, e, r; try discriminate; intros H; injection H as <-; cbn; auto 8.
  - intros H. destruct p, e, r; cbn [app In] in H;
      repeat (destruct H as [H|H]; [injection H as H <-; destruct s; try discriminate H; reflexivity|]); destruct H.
Qed.

Lemma arm_key_cv_spec a key : arm_key_cv L a key = Ok tt <-> k_key_ok L a key = true /\ (a = A_Ed25519 -> length key = 32).
Proof.
  unfold arm_key_cv. destruct a; try apply arm_key_spec.
  destruct (k_key_ok L A_Pss_256 key); (split; intros H; [|destruct H]); try discriminate; auto. split; [reflexivity|discriminate].
Qed.

Lemma verify_signature_spec msg c v certs : ce_entries c = map CE_X509 certs ->
  verify_signature L F msg c v = Ok tt <->
  exists leaf r dc key a, certs = leaf :: r /\ k_cert L leaf = Some dc /\ dc_key dc = Some key /\
    In (sig_scheme_code (cv_scheme v), a) (known_schemes F) /\ good_signature L a key msg (cv_sig v).
Proof.
  intros He. unfold verify_signature. rewrite He. destruct certs as [|leaf r]; cbn [map].
  { split; [discriminate|]. intros (? & ? & ? & ? & ? & H & _). discriminate. }
  split.
  - destruct (k_cert L leaf) as [dc|] eqn:Hc; cbn [ok_or obind]; [|discriminate].
    destruct (dc_key dc) as [key|] eqn:Hk; cbn [ok_or obind]; [|discriminate].
    destruct (scheme_alg F (cv_scheme v)) as [a|] eqn:Ha; [|discriminate]. apply scheme_alg_spec in Ha.
    destruct (arm_key_cv L a key) as [[]| | | |] eqn:Hak; cbn [obind]; try discriminate. apply arm_key_cv_spec in Hak as [Hk1 Hk2].
    destruct (k_sig_ok L a (cv_sig v)) eqn:Hs; [|discriminate]. destruct (k_verify L a key msg (cv_sig v)) eqn:Hv; [|discriminate].
    intros _. exists leaf, r, dc, key, a. unfold good_signature. auto 10.
  - intros (leaf' & r' & dc & key & a & [= <- <-] & Hc & Hk & Ha & Hk1 & Hs & Hv & Hk2).
    rewrite Hc. cbn [ok_or obind]. rewrite Hk. cbn [ok_or obind]. apply scheme_alg_spec in Ha. rewrite Ha.
    rewrite (proj2 (arm_key_cv_spec a key) (conj Hk1 Hk2)). cbn [obind]. now rewrite Hs, Hv.
Qed.

(** ** The calls *)

Lemma cert_call ca now size tr c certs s s' : pki_ok L -> ce_entries c = map CE_X509 certs ->
  pv_verify_certificate L F (CE_X509 ca) now size tr c s = (Ok tt, s') <->
  (chained L F now ca certs /\ Forall (fun d => exists m, reads_names L d m) certs /\
   exists n, match certs with [] => n = mk_names None [] | leaf :: _ => reads_names L leaf n end /\
     host_ok (pv_host s) (cn_common n) (cn_sans n)) /\
  length (ce_context c) <= 256 /\ length (ce_raw c) <= size /\
  s' = mk_pv (pv_host s) (Some tr) (Some (mk_owned (ce_context c) (ce_raw c))).
Proof.
  intros HL He. unfold pv_verify_certificate. rewrite He, map_length. split.
  - destruct (chain_loop L F (S (length certs)) (chain_new (CE_X509 ca) (map CE_X509 certs)) now (mk_names None [])) as [n| | | |] eqn:Hc;
      cbn [obind]; try discriminate.
    apply (chain_spec L F HL) in Hc as (H1 & H2 & H3).
    destruct (tls_hostname_match n (pv_host s)) eqn:Hh; cbn [obind]; [|discriminate]. apply names_spec in Hh.
    unfold cert_to_owned. destruct (Nat.leb_spec (length (ce_context c)) 256); [|discriminate].
    destruct (Nat.leb_spec (length (ce_raw c)) size); [|discriminate]. intros H5. apply pair_equal_spec in H5 as [_ <-].
    split; [|auto]. split; [exact H1|]. split; [exact H2|]. exists n. auto.
  - intros ((H1 & H2 & n & H3 & H4) & H5 & H6 & ->).
    rewrite (proj2 (chain_spec L F HL ca now certs n) (conj H1 (conj H2 H3))). cbn [obind].
    apply names_spec in H4. rewrite H4. cbn [obind]. unfold cert_to_owned.
    destruct (Nat.leb_spec (length (ce_context c)) 256); [|lia]. destruct (Nat.leb_spec (length (ce_raw c)) size); [reflexivity|lia].
Qed.

Lemma reads_names_spec der n : pki_ok L -> reads_names L der n ->
  exists c, k_cert L der = Some c /\ is_common_name c (cn_common n) /\ are_sans L c (cn_sans n).
Proof.
  intros HL (c & Hc & H1 & H2). exists c. split; [exact Hc|]. split; [now apply common_name_spec|now apply sans_sound].
Qed.

(** What an accepted Certificate message means. *)
Lemma cert_accepted ca now size tr c certs s s' : pki_ok L -> ce_entries c = map CE_X509 certs ->
  pv_verify_certificate L F (CE_X509 ca) now size tr c s = (Ok tt, s') ->
  chained L F now ca certs /\ leaf_for L (pv_host s) certs /\
  s' = mk_pv (pv_host s) (Some tr) (Some (mk_owned (ce_context c) (ce_raw c))).
Proof.
  intros HL He H. apply (cert_call ca now size tr c certs s s' HL He) in H as ((H1 & H2 & n & H3 & H4) & _ & _ & ->).
  split; [exact H1|]. split; [|reflexivity]. unfold leaf_for. destruct certs as [|leaf r].
  - subst n. cbn in H4. unfold host_ok in H4. destruct (pv_host s) as [h|]; [|reflexivity].
    destruct H4 as [(x & [] & _)|(x & Hx & _)]. discriminate.
  - destruct (reads_names_spec _ _ HL H3) as (dc & Hc & Hn & Hs). exists dc, (cn_common n), (cn_sans n). auto.
Qed.

(** What an accepted CertificateVerify means. *)
Lemma sig_call v s : crypto_ok C -> hash_len C <= 48 ->
  fst (pv_verify_signature L F C v s) = Ok tt <->
  exists tr o c, pv_transcript s = Some tr /\ pv_certificate s = Some o /\ cert_from_owned o = Ok c /\
    verify_signature L F (server_signs C tr) c v = Ok tt.
Proof.
  intros HC Hh. unfold pv_verify_signature. cbn [fst]. destruct (pv_transcript s) as [tr|]; cbn [unwrap obind].
  - rewrite (signed_message_spec C tr 146 HC). destruct (Nat.leb_spec (98 + hash_len C) 146); [|lia]. cbn [obind].
    destruct (pv_certificate s) as [o|]; cbn [unwrap obind].
    + destruct (cert_from_owned o) as [c| | | |] eqn:Hc; cbn [obind];
        [|split; [discriminate|intros (? & ? & ? & _ & [= <-] & H1 & _); congruence] ..].
      split; [intros H1; exists tr, o, c; auto|]. intros (tr' & o' & c' & [= <-] & [= <-] & H1 & H2).
      assert (c' = c) as -> by congruence. exact H2.
    + split; [discriminate|]. intros (? & ? & ? & _ & H1 & _). discriminate.
  - split; [discriminate|]. intros (? & ? & ? & H1 & _). discriminate.
Qed.
End V.

(** ** webpki *)

Section W.
Context (W : web_lib) (alloc : bool) (C : crypto).

Lemma web_scheme_spec s a : web_scheme alloc s = Some a <-> In (sig_scheme_code s, a) (web_schemes alloc).
Proof.
  unfold web_scheme, web_schemes. split.
  - destruct s; try discriminate; destruct alloc; try discriminate; intros H; injection H as <-; cbn; auto 12.
  - intros H. destruct alloc; cbn [app In] in H;
      repeat (destruct H as [H|H]; [injection H as H <-; destruct s; try discriminate H; reflexivity|]); destruct H.
Qed.

Lemma web_cert_spec host ca c certs now : ce_entries c = map CE_X509 certs ->
  web_verify_certificate W host ca c now = Ok tt <-> web_good W now ca host certs.
Proof.
  intros He. unfold web_verify_certificate, web_good. change ALL_SIGALGS with web_allowed. rewrite He. split.
  - destruct ca as [a|a]; [|discriminate]. destruct (w_anchor W a) eqn:Ha; [|discriminate].
    destruct certs as [|leaf rest]; cbn [map obind]; [discriminate|]. destruct (w_leaf W leaf) eqn:Hl; cbn [obind]; [|discriminate].
    destruct (w_usage W web_allowed a leaf (match now with Some n => n | None => 0%N end)) eqn:Hu; cbn [negb]; [|discriminate].
    destruct host as [h|].
    + destruct (w_name_ok W h && w_for_name W leaf h) eqn:Hh; cbn [negb andb]; [|discriminate]. apply andb_true_iff in Hh.
      intros _. exists a, leaf, rest. auto 10.
    + intros _. exists a, leaf, rest. auto 10.
  - intros (a & leaf & rest & -> & -> & Ha & Hl & Hu & Hh). cbn [map]. rewrite Ha, Hl. cbn [obind]. rewrite Hu. cbn [negb].
    destruct host as [h|]; [destruct Hh as [-> ->]|]; reflexivity.
Qed.

Lemma web_cert_call ca now size tr c certs s s' : ce_entries c = map CE_X509 certs ->
  wv_verify_certificate W ca now size tr c s = (Ok tt, s') <->
  web_good W now ca (pv_host s) certs /\ length (ce_context c) <= 256 /\ length (ce_raw c) <= size /\
  s' = mk_pv (pv_host s) (Some tr) (Some (mk_owned (ce_context c) (ce_raw c))).
Proof.
  intros He. unfold wv_verify_certificate. split.
  - destruct (web_verify_certificate W (pv_host s) ca c now) as [[]| | | |] eqn:Hc; cbn [obind]; try discriminate.
    apply (web_cert_spec _ _ _ _ _ He) in Hc.
    unfold cert_to_owned. destruct (Nat.leb_spec (length (ce_context c)) 256); [|discriminate].
    destruct (Nat.leb_spec (length (ce_raw c)) size); [|discriminate]. intros H5. apply pair_equal_spec in H5 as [_ <-]. auto.
  - intros (H1 & H5 & H6 & ->). rewrite (proj2 (web_cert_spec _ _ _ _ _ He) H1). cbn [obind]. unfold cert_to_owned.
    destruct (Nat.leb_spec (length (ce_context c)) 256); [|lia]. destruct (Nat.leb_spec (length (ce_raw c)) size); [reflexivity|lia].
Qed.

Lemma web_sig_spec tr c v certs : ce_entries c = map CE_X509 certs ->
  web_verify_signature W alloc (server_signs C tr) c v = Ok tt <->
  exists leaf r, certs = leaf :: r /\ web_signed W alloc C (sig_scheme_code (cv_scheme v)) (cv_sig v) leaf tr.
Proof.
  intros He. unfold web_verify_signature, web_signed. rewrite He. destruct certs as [|leaf r]; cbn [map].
  { split; [discriminate|]. intros (? & ? & H & _). discriminate. }
  split.
  - destruct (w_leaf W leaf) eqn:Hl; [|discriminate].
    destruct (web_scheme alloc (cv_scheme v)) as [a|] eqn:Ha; cbn [ok_or obind]; [|discriminate]. apply web_scheme_spec in Ha.
    destruct (w_verify W a leaf (server_signs C tr) (cv_sig v)) eqn:Hv; [|discriminate]. intros _. exists leaf, r. eauto 6.
  - intros (? & ? & [= <- <-] & a & Ha & Hl & Hv). rewrite Hl. apply web_scheme_spec in Ha. rewrite Ha. cbn [ok_or obind]. now rewrite Hv.
Qed.

Lemma web_sig_call v s : crypto_ok C ->
  fst (wv_verify_signature W alloc C v s) = Ok tt <->
  hash_len C <= 32 /\ exists tr o c, pv_transcript s = Some tr /\ pv_certificate s = Some o /\ cert_from_owned o = Ok c /\
    web_verify_signature W alloc (server_signs C tr) c v = Ok tt.
Proof.
  intros HC. unfold wv_verify_signature. cbn [fst]. destruct (pv_transcript s) as [tr|]; cbn [unwrap obind].
  - rewrite (signed_message_spec C tr 130 HC). destruct (Nat.leb_spec (98 + hash_len C) 130); cbn [obind]; [|split; [discriminate|lia]].
    destruct (pv_certificate s) as [o|]; cbn [unwrap obind].
    + destruct (cert_from_owned o) as [c| | | |] eqn:Hc; cbn [obind];
        [|split; [discriminate|intros (_ & ? & ? & ? & _ & [= <-] & H1 & _); congruence] ..].
      split; [intros H1; split; [lia|]; exists tr, o, c; auto|]. intros (_ & tr' & o' & c' & [= <-] & [= <-] & H1 & H2).
      assert (c' = c) as -> by congruence. exact H2.
    + split; [discriminate|]. intros (_ & ? & ? & ? & _ & H1 & _). discriminate.
  - split; [discriminate|]. intros (_ & ? & ? & ? & H1 & _). discriminate.
Qed.
End W.

(** ** A whole handshake *)

Section Flight.
Context (C : crypto) (p : provider pki_state).
Context (good : option bytes -> list bytes -> Prop) (signed : N -> bytes -> bytes -> bytes -> Prop).
Context (Hcert : forall tr c certs s s', ce_entries c = map CE_X509 certs -> p_verify_cert p tr c s = (Ok tt, s') ->
  good (pv_host s) certs /\ s' = mk_pv (pv_host s) (Some tr) (Some (mk_owned (ce_context c) (ce_raw c)))).
Context (Hsig : forall v s s', p_verify_sig p v s = (Ok tt, s') ->
  s' = mk_pv (pv_host s) None (pv_certificate s) /\
  exists tr o c, pv_transcript s = Some tr /\ pv_certificate s = Some o /\ cert_from_owned o = Ok c /\
    forall certs, ce_entries c = map CE_X509 certs ->
      exists leaf r, certs = leaf :: r /\ signed (sig_scheme_code (cv_scheme v)) (cv_sig v) leaf tr).

(** The verifier's state after the messages [done]. *)
Definition pending (host : option bytes) (hellos : bytes) (done : list (bytes * smsg)) (s : pki_state) : Prop :=
  pv_host s = host /\
  forall t, pv_transcript s = Some t -> exists d1 b ctx certs_raw certs d2,
    done = d1 ++ (b, M_Certificate ctx certs_raw certs) :: d2 /\ Forall (fun m => no_proof (snd m)) d2 /\
    t = hellos ++ raw d1 ++ b /\ good host certs /\ received (mk_cert certs_raw ctx (map CE_X509 certs)) certs /\
    pv_certificate s = Some (mk_owned ctx certs_raw).

Lemma raw_snoc d b m : raw (d ++ [(b, m)]) = raw d ++ b.
Proof. unfold raw. rewrite map_app, concat_app. cbn. now rewrite app_nil_r. Qed.

Lemma flight_proved host hellos ms tr v v' : accepts_all p tr ms v v' -> Forall (fun m => reads_as C (fst m) (snd m)) ms ->
  forall done, tr = hellos ++ raw done -> pending host hellos done v ->
  forall pre b scheme sg post, ms = pre ++ (b, M_CertificateVerify scheme sg) :: post ->
    proved_by (good host) (signed scheme sg) hellos (done ++ pre).
Proof.
  induction 1 as [tr v|tr b ctx rw certs ms v v1 v2 H1 H2 IH|tr b scheme sg ms v v1 v2 H1 H2 IH|tr b m ms v v' Hm H2 IH];
    intros Hr done -> [Hh Hp] pre b0 sc0 sg0 post E.
  - destruct pre; discriminate.
  - inversion Hr as [|? ? Hr1 Hr2]; subst. cbn [fst snd] in Hr1.
    destruct pre as [|m0 pre]; cbn [app] in E; [discriminate|]. injection E as <- E.
    replace (done ++ (b, M_Certificate ctx rw certs) :: pre) with ((done ++ [(b, M_Certificate ctx rw certs)]) ++ pre) by now rewrite <- app_assoc.
    destruct (Hcert _ (mk_cert rw ctx (map CE_X509 certs)) certs _ _ eq_refl H1) as [Hg ->]. cbn [ce_context ce_raw] in *.
    eapply IH; eauto; [now rewrite raw_snoc, app_assoc|]. split; [reflexivity|]. intros t [= <-]. cbn [pv_certificate].
    exists done, b, ctx, rw, certs, []. rewrite <- app_assoc. repeat (split; [auto; fail|]).
    split; [|reflexivity]. destruct Hr1 as (len & body & _ & Hb & _). cbn [smsg_body] in Hb.
    destruct Hb as (es & _ & _ & Hes & -> & -> & _). exists es. auto.
  - inversion Hr as [|? ? Hr1 Hr2]; subst.
    destruct (Hsig _ _ _ H1) as (-> & t & o & c & Ht & Ho & Hc & Hs).
    destruct pre as [|m0 pre]; cbn [app] in E.
    + injection E as -> <- <- <-. rewrite app_nil_r. destruct (Hp t Ht) as (d1 & b1 & ctx & rw & certs & d2 & -> & Hd & -> & Hg & Hrec & Ho').
      rewrite Ho in Ho'. injection Ho' as ->.
      assert (Hce : ce_entries c = map CE_X509 certs) by (eapply (received_again _ _ _ _ Hrec); exact Hc).
      destruct (Hs certs Hce) as (leaf & r & -> & Hsg). exists d1, b1, ctx, rw, leaf, r, d2. auto.
    + injection E as <- E.
      replace (done ++ (b, M_CertificateVerify (sig_scheme_code scheme) sg) :: pre)
        with ((done ++ [(b, M_CertificateVerify (sig_scheme_code scheme) sg)]) ++ pre) by now rewrite <- app_assoc.
      eapply IH; eauto; [now rewrite raw_snoc, app_assoc|]. split; [reflexivity|]. cbn. discriminate.
  - inversion Hr as [|? ? Hr1 Hr2]; subst. destruct pre as [|m0 pre]; cbn [app] in E; [injection E as _ -> _; destruct Hm|].
    injection E as <- E. replace (done ++ (b, m) :: pre) with ((done ++ [(b, m)]) ++ pre) by now rewrite <- app_assoc.
    eapply IH; eauto; [now rewrite raw_snoc, app_assoc|]. split; [reflexivity|]. intros t Ht.
    destruct (Hp t Ht) as (d1 & b1 & ctx & rw & certs & d2 & -> & Hd & -> & Hg & Hrec & Ho').
    exists d1, b1, ctx, rw, certs, (d2 ++ [(b, m)]). rewrite <- app_assoc. cbn [app].
    split; [reflexivity|]. split; [|auto 6]. apply Forall_app. split; [exact Hd|]. constructor; [|constructor].
    cbn [snd]. unfold no_proof. exact Hm.
Qed.
End Flight.

(** ** Panics *)

Section Panics.
Context (L : pki_lib) (F : features) (HL : pki_ok L).

Lemma san_loop_ends : forall fuel b names, length b <= fuel -> settled (san_loop L fuel b names).
Proof.
  induction fuel as [|fuel IH]; intros [|t b] names Hf; cbn [san_loop]; try exact I; cbn [length] in *; [lia|].
  destruct (k_header L (t :: b)) as [[[t' n] r]|] eqn:Hh; [|exact I].
  destruct (ok_header L HL _ _ _ _ Hh) as (h & E). apply (f_equal (@length _)) in E. rewrite app_length in E. cbn [length] in E.
  assert (length (skipn n r) <= fuel) by (rewrite skipn_length; lia).
  destruct (n <=? length r); [|exact I]. destruct (byte_eqb t x82); [|auto].
  destruct (utf8_valid (firstn n r) && _); [|exact I].
  destruct (length (if _ : bool then _ else _) =? MAX_SAN_DNS_NAMES); [exact I|auto].
Qed.

Lemma sans_end c : settled (extract_san_dns_names L c).
Proof.
  unfold extract_san_dns_names. destruct (dc_extensions c) as [exts|]; [|exact I].
  generalize (@nil bytes) as names. induction exts as [|[oid [tag value]] r IH]; intros names; cbn [san_extensions]; [exact I|].
  destruct (bytes_eqb oid OID_SAN); [|apply IH]. destruct (byte_eqb tag x04); [|exact I].
  destruct (k_header L value) as [[[t n] content]|] eqn:Hh; [|exact I].
  destruct (ok_header L HL _ _ _ _ Hh) as (h & E). apply (f_equal (@length _)) in E. rewrite app_length in E. cbn [length] in E.
  destruct (byte_eqb t x30); [|exact I]. destruct (n <=? length content); [|exact I].
  pose proof (san_loop_ends (length value) (firstn n content) names) as Hs. rewrite firstn_length in Hs. specialize (Hs ltac:(lia)).
  destruct (san_loop L (length value) (firstn n content) names); cbn [obind]; try exact Hs. apply IH.
Qed.

Lemma arm_key_ends a key : match arm_key L a key with
  | Ok _ | Err _ => True | Panic _ => a = A_Ed25519 /\ length key <> 32 | _ => False end.
Proof.
  unfold arm_key. destruct a; try (destruct (k_key_ok L _ key); exact I).
  destruct (Nat.eqb_spec (length key) 32); [destruct (k_key_ok L A_Ed25519 key); exact I|auto].
Qed.

Lemma ed25519_id id : In (id, A_Ed25519) (known_algs F) -> id = ed25519 /\ f_ed25519 F = true.
Proof.
  unfold known_algs. destruct F as [p e r]. cbn [f_p384 f_ed25519 f_rsa].
  destruct p, e, r; cbn [app In]; intros H;
    repeat (destruct H as [H|H]; [try discriminate H; injection H as <-; split; reflexivity|]); destruct H.
Qed.

Lemma verify_certificate_ends issuer der now : match verify_certificate L F (CE_X509 issuer) (CE_X509 der) now with
  | Ok _ | Err _ => True
  | Panic _ => f_ed25519 F = true /\ wrong_issuer L issuer der
  | _ => False end.
Proof.
  unfold verify_certificate. destruct (k_cert L issuer) as [ci|] eqn:Hi; cbn [ok_or obind]; [|exact I].
  destruct (k_cert L der) as [c|] eqn:Hc; cbn [ok_or obind]; [|exact I].
  destruct (dc_key ci) as [key|] eqn:Hk; cbn [ok_or obind]; [|exact I].
  destruct (extract_common_name c); cbn [ok_or obind]; [|exact I].
  pose proof (sans_end c) as Hs. destruct (extract_san_dns_names L c) as [sans| | | |]; cbn [obind]; try exact Hs; try contradiction.
  destruct (match now with Some _ => _ | None => _ end); cbn [obind]; [exact I|].
  destruct (get_certificate_tlv_bytes L der) as [tbs|]; cbn [ok_or obind]; [|exact I].
  destruct (cert_alg F (dc_alg c)) as [a|] eqn:Ha; [|exact I]. apply cert_alg_spec in Ha.
  pose proof (arm_key_ends a key) as Hak. destruct (arm_key L a key); cbn [obind]; try exact Hak.
  - destruct (dc_signature c) as [sg|]; cbn [ok_or obind]; [|exact I]. destruct (k_sig_ok L a sg); [|exact I].
    destruct (k_verify L a key tbs sg); exact I.
  - destruct Hak as [-> Hn]. apply ed25519_id in Ha as [Ha Hf]. split; [exact Hf|]. exists c, key. repeat split; auto. exists ci. auto.
Qed.

Lemma chain_loop_ends ca now certs : forall k names, k <= length certs ->
  match chain_loop L F (S k) (mk_chain (CE_X509 (nth k certs ca)) (map CE_X509 certs) k) now names with
  | Ok _ | Err _ => True
  | Panic _ => f_ed25519 F = true /\ exists i der, nth_error certs i = Some der /\ wrong_issuer L (nth (S i) certs ca) der
  | _ => False end.
Proof.
  induction k as [|k IH]; intros names Hk; rewrite chain_loop_S; unfold chain_next; cbn [ch_left ch_entries ch_prev]; [exact I|].
  unfold index. rewrite nth_error_map. destruct (nth_error certs k) as [der|] eqn:Hd; [|apply nth_error_None in Hd; lia].
  cbn [option_map obind]. pose proof (verify_certificate_ends (nth (S k) certs ca) der now) as Hv.
  destruct (verify_certificate L F (CE_X509 (nth (S k) certs ca)) (CE_X509 der) now); cbn [obind]; try exact Hv.
  - rewrite <- (nth_after certs k ca der Hd). apply IH. lia.
  - destruct Hv as [Hf Hw]. split; [exact Hf|]. exists k, der. auto.
Qed.

Lemma cert_call_ends ca now size tr c certs s : ce_entries c = map CE_X509 certs ->
  match fst (pv_verify_certificate L F (CE_X509 ca) now size tr c s) with
  | Ok _ | Err _ => True
  | Panic _ => f_ed25519 F = true /\ exists i der, nth_error certs i = Some der /\ wrong_issuer L (nth (S i) certs ca) der
  | _ => False end.
Proof.
  intros He. unfold pv_verify_certificate. rewrite He, map_length.
  pose proof (chain_loop_ends ca now certs (length certs) (mk_names None []) (Nat.le_refl _)) as Hc.
  unfold chain_new. rewrite map_length. rewrite nth_overflow in Hc by auto.
  destruct (chain_loop L F (S (length certs)) _ now _); cbn [obind fst]; try exact Hc.
  destruct (tls_hostname_match a (pv_host s)); cbn [obind fst]; [|exact I].
  unfold cert_to_owned. destruct (length (ce_context c) <=? 256); [|exact I]. destruct (length (ce_raw c) <=? size); exact I.
Qed.

Lemma verify_signature_ends msg c v certs : ce_entries c = map CE_X509 certs ->
  match verify_signature L F msg c v with
  | Ok _ | Err _ => True
  | Panic _ => exists leaf r key, certs = leaf :: r /\ key_of L leaf key /\
      ((f_ed25519 F = true /\ cv_scheme v = SS_Ed25519 /\ length key <> 32) \/
       (f_rsa F = true /\ cv_scheme v = SS_RsaPssRsaeSha256 /\ k_key_ok L A_Pss_256 key = false))
  | _ => False end.
Proof.
  intros He. unfold verify_signature. rewrite He. destruct certs as [|leaf r]; cbn [map]; [exact I|].
  destruct (k_cert L leaf) as [dc|] eqn:Hc; cbn [ok_or obind]; [|exact I].
  destruct (dc_key dc) as [key|] eqn:Hk; cbn [ok_or obind]; [|exact I].
  destruct (scheme_alg F (cv_scheme v)) as [a|] eqn:Ha; [|exact I].
  assert (Hend : forall o : outcome tls_error unit, match o with Ok _ => True | Err _ => True | Panic _ => a = A_Ed25519 /\ length key <> 32 \/ a = A_Pss_256 /\ k_key_ok L A_Pss_256 key = false | _ => False end ->
    match (_ <-- o ;; if k_sig_ok L a (cv_sig v) then if k_verify L a key msg (cv_sig v) then Ok tt else Err InvalidSignature else Err DecodeError) with
    | Ok _ | Err _ => True
    | Panic _ => a = A_Ed25519 /\ length key <> 32 \/ a = A_Pss_256 /\ k_key_ok L A_Pss_256 key = false
    | _ => False end).
  { intros [[]| | | |] Ho; cbn [obind]; try exact Ho. destruct (k_sig_ok L a (cv_sig v)); [|exact I]. destruct (k_verify L a key msg (cv_sig v)); exact I. }
  specialize (Hend (arm_key_cv L a key)). destruct (_ <-- arm_key_cv L a key ;; _); try exact I.
  - assert (HH : a = A_Ed25519 /\ length key <> 32 \/ a = A_Pss_256 /\ k_key_ok L A_Pss_256 key = false).
    { apply Hend. unfold arm_key_cv. destruct a; try (pose proof (arm_key_ends A_Ed25519 key) as H1; destruct (arm_key L A_Ed25519 key); tauto);
        try (match goal with |- context [arm_key L ?x key] => pose proof (arm_key_ends x key) as H1; destruct (arm_key L x key); tauto end).
      destruct (k_key_ok L A_Pss_256 key); auto. }
    exists leaf, r, key. split; [reflexivity|]. split; [exists dc; auto|]. unfold scheme_alg in Ha.
    destruct HH as [[-> Hn]|[-> Hn]]; [left|right]; destruct (cv_scheme v); try discriminate Ha;
      destruct (f_p384 F), (f_ed25519 F), (f_rsa F); try discriminate Ha; auto.
  - apply Hend. unfold arm_key_cv. destruct a;
        try (match goal with |- context [arm_key L ?x key] => pose proof (arm_key_ends x key) as H1; destruct (arm_key L x key); tauto end).
      destruct (k_key_ok L A_Pss_256 key); auto.
  - apply Hend. unfold arm_key_cv. destruct a;
        try (match goal with |- context [arm_key L ?x key] => pose proof (arm_key_ends x key) as H1; destruct (arm_key L x key); tauto end).
      destruct (k_key_ok L A_Pss_256 key); auto.
Qed.
End Panics.
