(** * The handshake, seen step by step *)
From Coq Require Import String List NArith Arith Bool Lia ZArith.
From Coq.Strings Require Import Byte.
From Coq Require Import ZifyBool ZifyNat ZifyN.
From Verif Require Import Base Buffer Codes Extensions Crypto KeySchedule Config Handshake Record WriteBuffer
  Transport RecordReader ReadBuffer Connection Api
  BaseProofs SpecWire WireProofs BufferProofs SpecKeys KeyProofs WriteProofs SpecRecord RecordProofs
  SpecHello HelloProofs PropHello SpecMessages ExtProofs PropCert SpecSend SendProofs HsWrite.
Import ListNotations.
Local Open Scope list_scope.

Ltac Zify.zify_post_hook ::= Z.div_mod_to_equations.

(** ** Inverting successful runs *)

Lemma bind_ok {S E A B} (m : M S E A) (f : A -> M S E B) s b s' :
  bind m f s = (Ok b, s') -> exists a s1, m s = (Ok a, s1) /\ f a s1 = (Ok b, s').
Proof. unfold bind. destruct (m s) as [[a|e|p| |] s1] eqn:E0; intros H; try discriminate. eauto. Qed.

Lemma lift_ok {S E A} (o : outcome E A) (s : S) a s' : lift o s = (Ok a, s') -> o = Ok a /\ s' = s.
Proof. unfold lift. intros H. inversion H. auto. Qed.

Lemma on_conn_ok {V A} (m : M conn tls_error A) (c : conn) (h : @hs_data V) a st :
  on_conn m (c, h) = (Ok a, st) -> exists c', m c = (Ok a, c') /\ st = (c', h).
Proof. unfold on_conn. cbn [fst snd]. destruct (m c) as [o c']. intros H. inversion H. eauto. Qed.

Lemma on_wh_ok {A} (m : M whalf tls_error A) c a c' : on_wh m c = (Ok a, c') ->
  exists w, m (cn_wh c) = (Ok a, w) /\ c' = mk_conn (cn_rd c) (cn_dec c) w (cn_shared c) (cn_opened c).
Proof. unfold on_wh. destruct (m (cn_wh c)) as [o w]. intros H. inversion H. eauto. Qed.

Lemma on_rd_ok {A} (m : M rdst tls_error A) c a c' : on_rd m c = (Ok a, c') ->
  exists r, m (cn_rd c) = (Ok a, r) /\ c' = mk_conn r (cn_dec c) (cn_wh c) (cn_shared c) (cn_opened c).
Proof. unfold on_rd. destruct (m (cn_rd c)) as [o w]. intros H. inversion H. eauto. Qed.

Lemma on_ks_ok f c u c' : on_ks f c = (Ok u, c') ->
  exists k, f (cn_keysched c) = Ok k /\ c' = cn_with_keysched c k.
Proof. unfold on_ks. destruct (f _); intros H; inversion H. eauto. Qed.

(** ** What the callback preserves, [decrypt_record] preserves *)

Section DecryptInv.
Context {S : Type} (C : crypto) (cb : rks -> server_record -> M S tls_error unit) (P : S -> Prop).

Definition holds {A} (m : M (rdst * S) tls_error A) : Prop := forall st, P (snd st) -> P (snd (snd (m st))).

Lemma holds_bind {A B} (m : M (rdst * S) tls_error A) (f : A -> M (rdst * S) tls_error B) :
  holds m -> (forall a, holds (f a)) -> holds (bind m f).
Proof.
  intros Hm Hf st H. specialize (Hm st H). unfold bind. destruct (m st) as [[a|e|x| |] st']; cbn [snd] in *; auto.
  now apply Hf.
Qed.
Lemma holds_pure {A} (m : M (rdst * S) tls_error A) : (forall st, snd (m st) = st) -> holds m.
Proof. intros H st Hp. now rewrite H. Qed.
Lemma holds_get {B} (f : rdst * S -> M (rdst * S) tls_error B) : (forall s, holds (f s)) -> holds (bind get f).
Proof. intros H st Hp. exact (H st st Hp). Qed.
Lemma holds_fst {A} (m : M rdst tls_error A) : holds (on_fst m).
Proof. intros st H. unfold on_fst. now destruct (m (fst st)). Qed.

Context (Hcb : forall k r s, P s -> P (snd (cb k r s))).
Lemma holds_cb r : holds (call_cb cb r).
Proof. intros st H. unfold call_cb. specialize (Hcb (rd_ks (fst st)) r (snd st) H). now destruct (cb _ r (snd st)). Qed.

Lemma holds_loop fuel q : holds (handshake_loop C cb fuel q).
Proof.
  revert q. induction fuel as [|fuel IH]; intros q; cbn [handshake_loop];
    (apply holds_bind; [apply holds_pure; reflexivity|]); intros r; destruct (r =? 0); try (apply holds_pure; reflexivity).
  apply holds_get. intros st0. destruct (read_server_handshake _ _ q) as [o q'].
  apply holds_bind; [apply holds_pure; reflexivity|]. intros ht.
  apply holds_bind; [apply holds_fst|]. intros _. apply holds_bind; [apply holds_cb|]. intros _. apply IH.
Qed.

Lemma holds_decrypt rec : holds (decrypt_record C cb rec).
Proof.
  unfold decrypt_record. destruct rec; try apply holds_cb.
  apply holds_get. intros st0. cbv zeta.
    apply holds_bind; [apply holds_pure; reflexivity|]. intros nonce.
    destruct (decrypt_in_place _ _ _ _ _) as [o data1].
    apply holds_bind; [apply holds_pure; reflexivity|]. intros _.
    apply holds_bind; [apply holds_fst|]. intros _.
    destruct (strip_content_type data1) as [o2 data2].
    apply holds_bind; [apply holds_pure; reflexivity|]. intros t.
    apply holds_bind; [apply holds_pure; reflexivity|]. intros inner.
    apply holds_bind; [|intros _; apply holds_fst].
    destruct t; try (apply holds_pure; reflexivity); try apply holds_cb; [|apply holds_loop].
    apply holds_bind; [apply holds_pure; reflexivity|]. intros ld. apply holds_cb.
Qed.
End DecryptInv.

(** ** Building and sending one handshake record *)

(** No record is started in the write buffer (of [L] bytes) and the write IV has the right size. *)
Definition idle (C : crypto) (L : nat) (c : conn) : Prop :=
  pending L (wh_wb (cn_wh c)) None /\ length (k_iv (wst (cn_wh c))) = iv_len C.

Definition tr_of (c : conn) : bytes := r_transcript (rd_ks (cn_rd c)).

Definition has_binder (r : client_record) (w : wks) : Prop :=
  forall h e, r = CR_Handshake (CH_Hello h) e -> cfg_psk (ch_config h) <> None -> exists bk, w_binder w = Some bk.

(** The transcript after the message [pl] of record [r]. *)
Definition tr_after (r : client_record) (tr pl : bytes) : bytes :=
  match r with CR_Handshake _ _ => tr ++ pl | CR_Alert _ _ _ => tr end.

Lemma cn_write_ok C L r c s c' : crypto_ok C -> idle C L c -> sendable r ->
  has_binder r (wh_ks (cn_wh c)) ->
  cn_write_record C r c = (Ok s, c') ->
  exists pl b, payload_of C r (wh_ks (cn_wh c)) (tr_of c) pl /\
    s = rec_wire C r (wst (cn_wh c)) pl /\ pending L b None /\ length s <= L /\
    c' = mk_conn (rd_with_ks (cn_rd c) (r_with_transcript (rd_ks (cn_rd c)) (tr_after r (tr_of c) pl))) (cn_dec c)
           (mk_whalf b (wh_ks (cn_wh c)) (wh_tx (cn_wh c)) (wh_policy (cn_wh c))) (cn_shared c) (cn_opened c).
Proof.
  intros HC [(Hl & Hp & Hh) Hiv] Hsd Hbk H. unfold cn_write_record in H.
  apply bind_ok in H as (c0 & c1 & H0 & H). inversion H0. subst c0 c1. clear H0.
  apply bind_ok in H as ([s0 tr1] & c1 & H0 & H). apply on_wh_ok in H0 as (w1 & H0 & ->).
  unfold on_wb in H0. destruct (wb_write_record _ _ _ _ _) as [o b] eqn:Ew. inversion H0. subst o w1. clear H0.
  destruct (wr_rec_ok C r _ _ _ _ _ _ HC Hiv Hp Hh Hsd Hbk Ew) as (pl & Hpl & -> & -> & Hl' & Hp' & Hh' & Hle).
  apply bind_ok in H as (u & c2 & H0 & H). apply on_rd_ok in H0 as (r2 & H0 & ->).
  inversion H0. subst r2. unfold ret in H. inversion H. subst s c'. cbn [fst snd cn_rd cn_dec cn_wh cn_shared cn_opened].
  exists pl, b. split; [exact Hpl|]. split; [reflexivity|]. split; [split; [congruence|auto]|]. split; [congruence|reflexivity].
Qed.

(** No Certificate message with a raw public key is ever built. *)
Lemma cn_write_raw C L c s c' raw ctx es e key : idle C L c -> In (CE_RawPublicKey key) es ->
  cn_write_record C (CR_Handshake (CH_Cert (mk_cert raw ctx es)) e) c <> (Ok s, c').
Proof.
  intros [(_ & _ & Hh) _] Hin H. unfold cn_write_record in H.
  apply bind_ok in H as (c0 & c1 & H0 & H). inversion H0. subst c0 c1. clear H0.
  apply bind_ok in H as ([s0 tr1] & c1 & H0 & _). apply on_wh_ok in H0 as (w1 & H0 & _).
  unfold on_wb in H0. destruct (wb_write_record _ _ _ _ _) as [o b] eqn:Ew. inversion H0. subst o. clear H0.
  revert Ew. apply wr_never; [|exact Hh]. now apply (raw_never C raw ctx es key).
Qed.

Lemma cn_write_not_ok C r c o c' : cn_write_record C r c = (o, c') -> (forall s, o <> Ok s) ->
  wh_tx (cn_wh c') = wh_tx (cn_wh c).
Proof.
  intros H Ho. unfold cn_write_record in H. unfold bind at 1, get at 1 in H. unfold bind at 1 in H.
  unfold on_wh, on_wb in H. destruct (wb_write_record _ _ _ _ _) as [o1 b].
  destruct o1 as [[s tr1]|e|p| |]; try (inversion H; subst; reflexivity).
Qed.

Lemma respond_send tx : respond tx = send tx true. Proof. reflexivity. Qed.

(** The write half after a completed [respond]. *)
Lemma respond_ok s w w' : respond s w = (Ok tt, w') ->
  wh_wb w' = wh_wb w /\ wh_policy w' = wh_policy w /\ wh_ks w' = w_with_state (wh_ks w) (bump (wst w)) /\
  log_of w' = log_of w ++ [TxWrite s (length s); TxFlush] /\ (k_counter (wst w) < u64_max)%N.
Proof.
  intros H. rewrite respond_send in H. destruct (send_cases s true w) as (o & w1 & He & Hs & Hwb & Hpol & _).
  rewrite He in H. inversion H. subst o w1. clear H.
  inversion Hs as [o n Hio Hn Hnok Hk Hlog Eo| |Hcnt Hk Hlog Eo|o Hcnt Hk Hio Hst Hnok Hlog Eo]; subst.
  - destruct Hio as [[k H]|H]; discriminate.
  - auto 6.
  - destruct Hio as [[k H]|H]; discriminate.
Qed.

Lemma respond_log s w o w' : respond s w = (o, w') ->
  exists n fl, log_of w' = log_of w ++ TxWrite s n :: fl /\ n <= length s /\
   (fl = [TxFlush] /\ n = length s /\ o = Ok tt \/ fl = [] /\ o <> Ok tt).
Proof.
  intros H. rewrite respond_send in H. destruct (send_cases s true w) as (o1 & w1 & He & Hs & Hwb & Hpol & _).
  rewrite He in H. inversion H. subst o1 w1. clear H.
  inversion Hs as [o2 n Hio Hn Hnok Hk Hlog Eo| |Hcnt Hk Hlog Eo|o2 Hcnt Hk Hio Hst Hnok Hlog Eo]; subst.
  - exists n, []. repeat split; auto. right. split; [auto|]. destruct Hio as [[k ->]| ->]; discriminate.
  - exists (length s), []. repeat split; auto. right. split; auto. discriminate.
  - exists (length s), [TxFlush]. repeat split; auto.
  - exists (length s), []. repeat split; auto. right. split; auto. destruct Hio as [[k ->]| ->]; discriminate.
Qed.

(** ** One step of the handshake that succeeds *)

Section Steps.
Context {V : Type} (C : crypto) (p : provider V) (cfg : tls_config).

(** The record [r] with payload [pl] was built with key schedule [k] on transcript [tr] and
    sent completely from [c]; the connection is then [c']. *)
Definition sends (L : nat) (r : client_record) (c : conn) (pl : bytes) (c' : conn) : Prop :=
  payload_of C r (wh_ks (cn_wh c)) (tr_of c) pl /\
  log_of (cn_wh c') = log_of (cn_wh c) ++
    [TxWrite (rec_wire C r (wst (cn_wh c)) pl) (length (rec_wire C r (wst (cn_wh c)) pl)); TxFlush] /\
  cn_rd c' = rd_with_ks (cn_rd c) (r_with_transcript (rd_ks (cn_rd c)) (tr_after r (tr_of c) pl)) /\
  cn_dec c' = cn_dec c /\ cn_shared c' = cn_shared c /\ cn_opened c' = cn_opened c /\
  wh_ks (cn_wh c') = w_with_state (wh_ks (cn_wh c)) (bump (wst (cn_wh c))) /\
  wh_policy (cn_wh c') = wh_policy (cn_wh c) /\
  idle C L c' /\ length (rec_wire C r (wst (cn_wh c)) pl) <= L.

Lemma sends_ok L r c s c1 h u st : crypto_ok C -> idle C L c -> sendable r -> has_binder r (wh_ks (cn_wh c)) ->
  cn_write_record C r c = (Ok s, c1) ->
  on_conn (V:=V) (on_wh (respond s)) (c1, h) = (Ok u, st) ->
  exists pl c', sends L r c pl c' /\ st = (c', h).
Proof.
  intros HC Hid Hsd Hbk Hw Hr.
  destruct (cn_write_ok C L r c s c1 HC Hid Hsd Hbk Hw) as (pl & b & Hpl & -> & Hb & Hle & ->).
  apply on_conn_ok in Hr as (c2 & Hr & ->). apply on_wh_ok in Hr as (w2 & Hr & ->).
  cbn [cn_wh cn_rd cn_dec cn_shared cn_opened] in *. destruct u.
  apply respond_ok in Hr as (Hwb & Hpol & Hks & Hlog & _).
  exists pl. eexists. split; [|reflexivity]. unfold sends. cbn [cn_wh cn_rd cn_dec cn_shared cn_opened].
  split; [exact Hpl|]. split; [exact Hlog|]. split; [reflexivity|]. split; [reflexivity|]. split; [reflexivity|].
  split; [reflexivity|]. split; [exact Hks|]. split; [exact Hpol|].
  split; [|exact Hle].
  split; cbn [cn_wh]; [now rewrite Hwb|]. unfold wst. rewrite Hks. exact (proj2 Hid).
Qed.

(** The steps. *)
Inductive pstep (L : nat) : hs_state -> conn -> @hs_data V -> hs_state -> conn -> @hs_data V -> Prop :=
| ps_hello c h k1 msg c' :
    initialize_early_secret C (cn_keysched c) (option_map fst (cfg_psk cfg)) = Ok k1 ->
    sends L (CR_Handshake (CH_Hello (mk_ch cfg (p_random p) (p_secret p))) false)
      (cn_with_keysched c k1) msg c' ->
    pstep L St_ClientHello c h St_ServerHello c' (hs_set_secret (Some (p_secret p)) h)
| ps_server_hello c h r1 exts secret dhe k2 :
    rd_read C (cn_rd c) = (Ok (SR_Handshake (SH_ServerHello exts)), r1) ->
    hs_secret h = Some secret -> sh_shared_secret C exts secret = Some dhe ->
    initialize_handshake_secret C (mk_keysched (cn_shared c) (wh_ks (cn_wh c)) (rd_ks r1)) dhe = Ok k2 ->
    pstep L St_ServerHello c h St_ServerVerify
      (mk_conn (rd_with_ks r1 (ks_r k2)) (cn_dec c) (wh_with_ks (cn_wh c) (ks_w k2)) (ks_shared k2) (cn_opened c))
      (hs_set_secret None h)
| ps_server_verify c h rec r1 r2 s' h' :
    rd_read C (cn_rd c) = (Ok rec, r1) ->
    decrypt_record C (server_verify_cb C p) rec (r1, (St_ServerVerify, h)) = (Ok tt, (r2, (s', h'))) ->
    pstep L St_ServerVerify c h s' (mk_conn r2 (cn_dec c) (cn_wh c) (cn_shared c) (cn_opened c)) h'
| ps_cert c h ctx msg c' :
    hs_certreq h = Some ctx ->
    sends L (CR_Handshake (CH_Cert (mk_cert [] ctx (match p_client_cert p with Some e => [e] | None => [] end))) true) c msg c' ->
    (forall key, p_client_cert p <> Some (CE_RawPublicKey key)) ->
    pstep L St_ClientCert c h (match p_client_cert p with Some _ => St_ClientCertVerify | None => St_ClientFinished end)
      c' (hs_set_traffic (Some (tr_of c)) h)
| ps_cert_verify c h sign scheme m sg msg c' :
    p_signer p = Ok (sign, scheme) -> cv_client_message C (tr_of c) = Ok m ->
    sign m = Some sg -> length sg <= p_sig_cap p ->
    sends L (CR_Handshake (CH_CertVerify (mk_cv scheme sg)) true) c msg c' ->
    pstep L St_ClientCertVerify c h St_ClientFinished c' h
| ps_finished c h v msg c1 tr k3 :
    create_client_finished C (cn_keysched c) = Ok v ->
    sends L (CR_Handshake (CH_Finished (mk_fin v None)) true) c msg c1 ->
    hs_traffic h = Some tr ->
    initialize_master_secret C (mk_keysched (cn_shared c1) (wh_ks (cn_wh c1)) (mk_rks (r_state (rd_ks (cn_rd c1))) tr)) = Ok k3 ->
    pstep L St_ClientFinished c h St_ApplicationData (cn_with_keysched c1 k3) (hs_set_traffic None h).

Lemma hpe_ok (m : M (conn * @hs_data V) tls_error hs_state) st s' st' :
  handle_processing_error C m st = (Ok s', st') -> m st = (Ok s', st').
Proof.
  unfold handle_processing_error, attempt. intros H. apply bind_ok in H as (r & st1 & H1 & H).
  destruct (m st) as [[a|e|x| |] s1]; inversion H1; subst.
  - exact H.
  - exfalso. destruct e; try discriminate.
    apply bind_ok in H as (tx & st2 & _ & H). apply bind_ok in H as (u & st3 & _ & H). discriminate.
Qed.

Lemma ie_binder k psk k1 : initialize_early_secret C k psk = Ok k1 ->
  (exists bk, w_binder (ks_w k1) = Some bk) /\ w_state (ks_w k1) = w_state (ks_w k).
Proof.
  unfold initialize_early_secret. intros H.
  apply obind_ok in H as (bk & _ & H). apply obind_ok in H as (b & _ & H). apply obind_ok in H as (sh & _ & H).
  inversion H. cbn. eauto.
Qed.

Lemma process_pstep L s c h s' c' h' : crypto_ok C -> idle C L c -> s <> St_ApplicationData ->
  process C p cfg s (c, h) = (Ok s', (c', h')) -> pstep L s c h s' c' h'.
Proof.
  intros HC Hid Hs H. destruct s; cbn [process] in H; [| | | | | |contradiction].
  - (* ClientHello *)
    apply bind_ok in H as (tx & [c1 h1] & H1 & H). unfold do_client_hello in H1.
    apply bind_ok in H1 as (u & st & Hk & H1). apply on_conn_ok in Hk as (ck & Hk & ->).
    apply on_ks_ok in Hk as (k1 & Hk & ->).
    apply bind_ok in H1 as (tx0 & st & Hw & H1). apply on_conn_ok in Hw as (cw & Hw & ->).
    apply bind_ok in H1 as (u1 & st & Hm & H1). unfold mod_hs, modify in Hm. inversion Hm. subst st. clear Hm.
    unfold ret in H1. inversion H1. subst tx0 c1 h1. clear H1.
    apply bind_ok in H as (u2 & st & Hr & H). unfold ret in H. inversion H. subst s' st. clear H.
    cbn [fst snd] in *.
    destruct (ie_binder _ _ _ Hk) as [[bk Hbk] Hst].
    eapply (sends_ok L) in Hr; [| | | | |exact Hw].
    + destruct Hr as (msg & c2 & Hsend & E). inversion E. subst c2 h'. eapply ps_hello; eauto.
    + exact HC.
    + destruct Hid as [Hp Hiv]. split; [exact Hp|]. unfold wst. cbn [cn_with_keysched cn_wh wh_with_ks wh_ks].
      rewrite Hst. exact Hiv.
    + reflexivity.
    + intros x e _ _. exists bk. exact Hbk.
  - (* ServerHello *)
    apply bind_ok in H as (rec & st & Hr & H). apply on_conn_ok in Hr as (c1 & Hr & ->).
    apply on_rd_ok in Hr as (r1 & Hr & ->). apply hpe_ok in H. unfold process_server_hello in H.
    destruct rec as [[exts| | | | | |]| | |]; try discriminate.
    apply bind_ok in H as (st & st0 & Hg & H). unfold get in Hg. inversion Hg. subst st st0. clear Hg.
    apply bind_ok in H as (u & st & Hm & H). unfold mod_hs, modify in Hm. inversion Hm. subst st. clear Hm.
    apply bind_ok in H as (secret & st & Hse & H). apply lift_ok in Hse as [Hse ->].
    apply bind_ok in H as (dhe & st & Hd & H). apply lift_ok in Hd as [Hd ->].
    apply bind_ok in H as (u2 & st & Hk & H). apply on_conn_ok in Hk as (c2 & Hk & ->).
    apply on_ks_ok in Hk as (k2 & Hk & ->). unfold ret in H. inversion H. subst s' c' h'. clear H.
    cbn [fst snd] in *.
    eapply (ps_server_hello L c h r1 exts secret dhe k2); eauto.
    + destruct (hs_secret h); [now inversion Hse|discriminate].
    + destruct (sh_shared_secret C exts secret); [now inversion Hd|discriminate].
  - (* ServerVerify *)
    apply bind_ok in H as (rec & st & Hr & H). apply on_conn_ok in Hr as (c1 & Hr & ->).
    apply on_rd_ok in Hr as (r1 & Hr & ->). apply hpe_ok in H. unfold process_server_verify in H.
    cbn [cn_rd cn_dec cn_wh cn_shared cn_opened] in H.
    destruct (decrypt_record _ _ _ _) as [o [r2 [s2 h2]]] eqn:Ed.
    destruct o as [[]| | | |]; inversion H. subst s2 c' h2. eapply ps_server_verify; eauto.
  - (* ClientCert *)
    apply bind_ok in H as ([nx tx] & [c1 h1] & H1 & H). unfold do_client_cert in H1.
    apply bind_ok in H1 as (st & st0 & Hg & H1). unfold get in Hg. inversion Hg. subst st st0. clear Hg.
    apply bind_ok in H1 as (u & st & Hm & H1). unfold mod_hs, modify in Hm. inversion Hm. subst st. clear Hm.
    apply bind_ok in H1 as (ctx & st & Hc & H1). apply lift_ok in Hc as [Hc ->]. cbn [fst snd] in *.
    assert (Hc' : hs_certreq h = Some ctx) by (destruct (hs_certreq h); [now inversion Hc|discriminate]).
    pose proof (ps_cert L c h ctx) as Hps.
    destruct (p_client_cert p) as [e|].
    + apply bind_ok in H1 as (tx0 & st & Hw & H1). apply on_conn_ok in Hw as (cw & Hw & ->).
      unfold ret in H1. inversion H1. subst nx tx0 c1 h1. clear H1.
      apply bind_ok in H as (u2 & st & Hr & H). unfold ret in H. cbn [fst snd] in *. inversion H. subst s' st. clear H.
      eapply (sends_ok L) in Hr; [| | | | |exact Hw]; auto.
      * destruct Hr as (msg & c2 & Hsend & E). inversion E. subst c2 h'. eapply Hps; eauto.
        intros key Hk. injection Hk as ->. revert Hw. apply (cn_write_raw C L _ _ _ _ _ _ _ key Hid). now left.
      * exact I.
      * intros x y E. discriminate.
    + apply bind_ok in H1 as (tx0 & st & Hw & H1). apply on_conn_ok in Hw as (cw & Hw & ->).
      unfold ret in H1. inversion H1. subst nx tx0 c1 h1. clear H1.
      apply bind_ok in H as (u2 & st & Hr & H). unfold ret in H. cbn [fst snd] in *. inversion H. subst s' st. clear H.
      eapply (sends_ok L) in Hr; [| | | | |exact Hw]; auto.
      * destruct Hr as (msg & c2 & Hsend & E). inversion E. subst c2 h'. eapply Hps; eauto. discriminate.
      * exact I.
      * intros x y E. discriminate.
  - (* ClientCertVerify *)
    apply bind_ok in H as ([nx tx] & [c1 h1] & H1 & H). unfold do_client_cert_verify in H1.
    apply bind_ok in H1 as (st & st0 & Hg & H1). unfold get in Hg. inversion Hg. subst st st0. clear Hg.
    cbn [fst snd] in *.
    destruct (p_signer p) as [[sign scheme]|e|x| |] eqn:Esig; try discriminate.
    + apply bind_ok in H1 as (m & st & Hm & H1). apply lift_ok in Hm as [Hm ->].
      destruct (sign m) as [sg|] eqn:Esi; [|discriminate].
      destruct (p_sig_cap p <? length sg) eqn:El; [discriminate|]. apply Nat.ltb_ge in El.
      apply bind_ok in H1 as (tx0 & st & Hw & H1). apply on_conn_ok in Hw as (cw & Hw & ->).
      unfold ret in H1. inversion H1. subst nx tx0 c1 h1. clear H1.
      apply bind_ok in H as (u2 & st & Hr & H). cbn [fst snd] in *. unfold ret in H. inversion H. subst s' st. clear H.
      eapply (sends_ok L) in Hr; [| | | | |exact Hw]; auto.
      * destruct Hr as (msg & c2 & Hsend & E). inversion E. subst c2 h'. eapply ps_cert_verify; eauto.
      * exact I.
      * intros x y E. discriminate.
    + apply bind_ok in H1 as (tx0 & st & Hw & H1). unfold ret in H1. inversion H1. subst nx tx0 st.
      apply bind_ok in H as (u2 & st & Hr & H). discriminate.
  - (* ClientFinished *)
    apply bind_ok in H as (tx & [c1 h1] & H1 & H). unfold do_client_finished in H1.
    apply bind_ok in H1 as (st & st0 & Hg & H1). unfold get in Hg. inversion Hg. subst st st0. clear Hg.
    apply bind_ok in H1 as (v & st & Hv & H1). apply lift_ok in Hv as [Hv ->]. cbn [fst snd] in *.
    assert (Hv' : create_client_finished C (cn_keysched c) = Ok v) by (destruct (create_client_finished _ _); inversion Hv; reflexivity).
    apply on_conn_ok in H1 as (cw & Hw & E). inversion E. subst cw h1. clear E.
    apply bind_ok in H as (u2 & st & Hr & H).
    eapply (sends_ok L) in Hr; [| | | | |exact Hw]; auto; [|exact I|intros x y E; discriminate].
    destruct Hr as (msg & c2 & Hsend & ->).
    unfold client_finished_finalize in H.
    apply bind_ok in H as (st & st0 & Hg & H). unfold get in Hg. inversion Hg. subst st st0. clear Hg.
    apply bind_ok in H as (u3 & st & Hm & H). unfold mod_hs, modify in Hm. inversion Hm. subst st. clear Hm.
    apply bind_ok in H as (tr & st & Ht & H). apply lift_ok in Ht as [Ht ->]. cbn [fst snd] in *.
    apply bind_ok in H as (u4 & st & Hs1 & H). apply on_conn_ok in Hs1 as (c3 & Hs1 & ->).
    apply on_rd_ok in Hs1 as (r3 & Hs1 & ->). inversion Hs1. subst r3. clear Hs1.
    apply bind_ok in H as (u5 & st & Hk & H). apply on_conn_ok in Hk as (c4 & Hk & ->).
    apply on_ks_ok in Hk as (k3 & Hk & ->). unfold ret in H. inversion H. subst s' c' h'. clear H.
    assert (Ht' : hs_traffic h = Some tr) by (destruct (hs_traffic h); [now inversion Ht|discriminate]).
    pose proof (ps_finished L c h v msg c2 tr k3 Hv' Hsend Ht') as Hps.
    replace (cn_with_keysched _ k3) with (cn_with_keysched c2 k3) by reflexivity. apply Hps. exact Hk.
Qed.

(** ** Runs of the handshake *)

Inductive hrun (L : nat) : hs_state -> conn -> @hs_data V -> conn -> @hs_data V -> Prop :=
| hr_done c h : hrun L St_ApplicationData c h c h
| hr_step s c h s1 c1 h1 c2 h2 :
    pstep L s c h s1 c1 h1 -> hrun L s1 c1 h1 c2 h2 -> hrun L s c h c2 h2.

Lemma ihs_iv k dhe k2 : crypto_ok C -> initialize_handshake_secret C k dhe = Ok k2 ->
  length (k_iv (w_state (ks_w k2))) = iv_len C /\ k_counter (w_state (ks_w k2)) = 0%N /\
  length (k_iv (r_state (ks_r k2))) = iv_len C /\ k_counter (r_state (ks_r k2)) = 0%N.
Proof.
  intros HC H. unfold initialize_handshake_secret, calculate_traffic_secrets in H. cbn [ks_shared ks_w ks_r] in H.
  destruct (calculate_traffic_secret_spec C (shared_initialize C (ks_shared k) dhe) _ "c hs traffic" (r_transcript (ks_r k)) HC eq_refl ltac:(cbn; lia))
    as (s1 & k1 & i1 & _ & _ & _ & E1 & _ & _ & Hi1).
  destruct (calculate_traffic_secret_spec C (shared_initialize C (ks_shared k) dhe) _ "s hs traffic" (r_transcript (ks_r k)) HC eq_refl ltac:(cbn; lia))
    as (s2 & k2' & i2 & _ & _ & _ & E2 & _ & _ & Hi2).
  rewrite E1, E2 in H. cbn [obind ks_shared ks_w ks_r] in H. apply obind_ok in H as (sh & _ & H). inversion H. cbn. auto.
Qed.

Lemma ims_iv k k3 : crypto_ok C -> initialize_master_secret C k = Ok k3 ->
  length (k_iv (w_state (ks_w k3))) = iv_len C /\ k_counter (w_state (ks_w k3)) = 0%N /\
  length (k_iv (r_state (ks_r k3))) = iv_len C /\ k_counter (r_state (ks_r k3)) = 0%N /\
  r_transcript (ks_r k3) = r_transcript (ks_r k).
Proof.
  intros HC H. unfold initialize_master_secret, calculate_traffic_secrets in H. cbn [ks_shared ks_w ks_r] in H.
  destruct (calculate_traffic_secret_spec C (shared_initialize C (ks_shared k) (zeros (hash_len C))) _ "c ap traffic" (r_transcript (ks_r k)) HC eq_refl ltac:(cbn; lia))
    as (s1 & k1 & i1 & _ & _ & _ & E1 & _ & _ & Hi1).
  destruct (calculate_traffic_secret_spec C (shared_initialize C (ks_shared k) (zeros (hash_len C))) _ "s ap traffic" (r_transcript (ks_r k)) HC eq_refl ltac:(cbn; lia))
    as (s2 & k2' & i2 & _ & _ & _ & E2 & _ & _ & Hi2).
  rewrite E1, E2 in H. cbn [obind ks_shared ks_w ks_r] in H. apply obind_ok in H as (sh & _ & H). inversion H. cbn. auto.
Qed.

Lemma pstep_idle L s c h s' c' h' : crypto_ok C -> idle C L c -> pstep L s c h s' c' h' ->
  idle C L c' /\ cn_opened c' = cn_opened c /\ cn_dec c' = cn_dec c /\ wh_policy (cn_wh c') = wh_policy (cn_wh c).
Proof.
  intros HC Hid H.
  assert (Hs : forall L r c pl c', sends L r c pl c' -> idle C L c' /\ cn_opened c' = cn_opened c /\ cn_dec c' = cn_dec c
     /\ wh_policy (cn_wh c') = wh_policy (cn_wh c)).
  { clear. intros L r c pl c' (_ & _ & _ & Hd & _ & Ho & _ & Hp & Hi & _). auto. }
  inversion H; subst; try (eapply Hs; eassumption).
  - apply Hs in H1. exact H1.
  - split; [|auto]. split; [exact (proj1 Hid)|]. cbn. unfold wst. cbn. eapply ihs_iv; eauto.
  - split; [|auto]. exact Hid.
  - destruct (Hs _ _ _ _ _ H1) as ([Hp _] & Ho & Hd & Hpol). split; [|auto].
    split; [exact Hp|]. cbn. unfold wst. cbn. eapply ims_iv; eauto.
Qed.

Lemma open_loop_hrun L : crypto_ok C -> forall fuel s c h u c' h', idle C L c ->
  open_loop C p cfg fuel s (c, h) = (Ok u, (c', h')) -> hrun L s c h c' h'.
Proof.
  intros HC. induction fuel as [|fuel IH]; intros s c h u c' h' Hid H.
  - destruct s; cbn [open_loop] in H; try discriminate. inversion H. constructor.
  - assert (Hgo : s <> St_ApplicationData ->
      (s' <- process C p cfg s ;; open_loop C p cfg fuel s') (c, h) = (Ok u, (c', h')) -> hrun L s c h c' h').
    { intros Hs H0. apply bind_ok in H0 as (s1 & [c1 h1] & Hp & H0).
      apply (process_pstep L) in Hp; auto. econstructor; [exact Hp|]. eapply IH; [|exact H0].
      eapply pstep_idle; eauto. }
    destruct s; cbn [open_loop] in H; try (apply Hgo; [discriminate|exact H]). inversion H. constructor.
Qed.

Lemma hrun_inv L s c h c' h' : crypto_ok C -> idle C L c -> hrun L s c h c' h' ->
  idle C L c' /\ cn_opened c' = cn_opened c /\ cn_dec c' = cn_dec c /\ wh_policy (cn_wh c') = wh_policy (cn_wh c).
Proof.
  intros HC Hid H. induction H as [c h|s c h s1 c1 h1 c2 h2 H1 H2 IH]; [auto|].
  destruct (pstep_idle L _ _ _ _ _ _ HC Hid H1) as (Hi & Ho & Hd & Hp).
  destruct (IH Hi) as (Hi2 & Ho2 & Hd2 & Hp2). repeat split; try apply Hi2; congruence.
Qed.

(** The states that the closure of [process_server_verify] can leave. *)
Definition after_verify (s : hs_state) : Prop :=
  match s with St_ServerVerify | St_ClientCert | St_ClientFinished => True | _ => False end.

Lemma server_verify_after k r st : after_verify (fst st) -> after_verify (fst (snd (server_verify_cb C p k r st))).
Proof.
  intros H. unfold server_verify_cb.
  destruct r as [[e| | |ce|ctx|v|f]| |l d|hd off data]; try exact H.
  - destruct (p_has_verifier p); [|exact H]. unfold on_v. now destruct (p_verify_cert p _ _ _).
  - unfold bind at 1, lift at 1. destruct (cert_request_try_from ctx); exact H.
  - destruct (p_has_verifier p); [|exact H]. unfold on_v. now destruct (p_verify_sig p _ _).
  - unfold bind at 1, lift at 1. destruct (verify_server_finished _ _ _ _) as [[]| | | |]; try exact H.
    cbn [negb]. unfold bind at 1, get at 1. destruct (hs_certreq (snd st)); exact I.
Qed.

(** The last step installs the application keys. *)
Lemma hrun_fresh L s c h c' h' : crypto_ok C -> idle C L c -> hrun L s c h c' h' -> s <> St_ApplicationData ->
  k_counter (wst (cn_wh c')) = 0%N /\ k_counter (r_state (rd_ks (cn_rd c'))) = 0%N /\
  length (k_iv (r_state (rd_ks (cn_rd c')))) = iv_len C.
Proof.
  intros HC Hid H. induction H as [c h|s c h s1 c1 h1 c2 h2 H1 H2 IH]; [contradiction|]. intros Hs.
  destruct (pstep_idle L _ _ _ _ _ _ HC Hid H1) as (Hi & _).
  destruct s1; try (apply IH; [exact Hi|discriminate]).
  inversion H2; subst; [|inversion H; subst].
  assert (Hfin : forall c1 k3 k, initialize_master_secret C k = Ok k3 ->
    k_counter (wst (cn_wh (cn_with_keysched c1 k3))) = 0%N /\
    k_counter (r_state (rd_ks (cn_rd (cn_with_keysched c1 k3)))) = 0%N /\
    length (k_iv (r_state (rd_ks (cn_rd (cn_with_keysched c1 k3))))) = iv_len C).
  { intros c0 k3 k Hk. destruct (ims_iv _ _ HC Hk) as (H3 & H4 & H5 & H6 & _). auto. }
  inversion H1; subst; try (eapply Hfin; eassumption); exfalso.
  - (* ServerVerify never jumps to ApplicationData *)
    match goal with H : decrypt_record _ _ _ _ = _ |- _ => rename H into Hd end.
    assert (G : forall rec st, after_verify (fst (snd st)) -> after_verify (fst (snd (snd (decrypt_record C (server_verify_cb C p) rec st))))).
    { intros rec0 st0 Hst0. apply (holds_decrypt C (server_verify_cb C p) (fun st => after_verify (fst st))); [|exact Hst0].
      apply server_verify_after. }
    specialize (G rec (r1, (St_ServerVerify, h)) I). rewrite Hd in G. exact G.
  - destruct (p_client_cert p); discriminate.
Qed.

(** ** [open], whatever its outcome *)

(** The handshake records that may be sent in each state. *)
Definition may_send (s : hs_state) (r : client_record) : Prop :=
  match s, r with
  | St_ClientHello, CR_Handshake (CH_Hello h) false => h = mk_ch cfg (p_random p) (p_secret p)
  | St_ServerHello, CR_Alert _ _ false => True
  | St_ServerVerify, CR_Alert _ _ false => True
  | St_ClientCert, CR_Handshake (CH_Cert _) true => True
  | St_ClientCertVerify, CR_Handshake (CH_CertVerify _) true => True
  | St_ClientCertVerify, CR_Alert AL_Warning AD_CloseNotify true => True
  | St_ClientFinished, CR_Handshake (CH_Finished _) true => True
  | _, _ => False
  end.

Definition hs_out (L : nat) (s : hs_state) (ok : bool) (evs : list tx_event) : Prop :=
  evs = [] \/ exists r w tr pl n fl,
    may_send s r /\ payload_of C r w tr pl /\ length (k_iv (w_state w)) = iv_len C /\
    length (rec_wire C r (w_state w) pl) <= L /\ n <= length (rec_wire C r (w_state w) pl) /\
    evs = TxWrite (rec_wire C r (w_state w) pl) n :: fl /\
    (fl = [TxFlush] /\ n = length (rec_wire C r (w_state w) pl) \/ fl = [] /\ ok = false).

Lemma may_sendable s r : may_send s r -> sendable r.
Proof. destruct s, r as [[] []|]; cbn; auto; try contradiction. Qed.

Notation H A := (M (conn * @hs_data V) tls_error A).

(** [m] leaves the transport and the [opened] flag alone. *)
Definition quiet {A} (m : H A) : Prop := forall st,
  wh_tx (cn_wh (fst (snd (m st)))) = wh_tx (cn_wh (fst st)) /\ cn_opened (fst (snd (m st))) = cn_opened (fst st).

Lemma quiet_bind {A B} (m : H A) (f : A -> H B) : quiet m -> (forall a, quiet (f a)) -> quiet (bind m f).
Proof.
  intros Hm Hf st. specialize (Hm st). unfold bind. destruct (m st) as [[a|e|x| |] st']; cbn [snd] in *; auto.
  destruct (Hf a st') as [E1 E2]. rewrite E1, E2. exact Hm.
Qed.
Lemma quiet_pure {A} (m : H A) : (forall st, fst (snd (m st)) = fst st) -> quiet m.
Proof. intros H st. now rewrite H. Qed.
Lemma quiet_conn {A} (m : M conn tls_error A) :
  (forall c, wh_tx (cn_wh (snd (m c))) = wh_tx (cn_wh c) /\ cn_opened (snd (m c)) = cn_opened c) -> quiet (on_conn m).
Proof. intros H st. unfold on_conn. specialize (H (fst st)). now destruct (m (fst st)). Qed.
Lemma quiet_rd {A} (m : M rdst tls_error A) : quiet (on_conn (on_rd m)).
Proof. apply quiet_conn. intros c. unfold on_rd. now destruct (m (cn_rd c)). Qed.
Lemma quiet_ks f : quiet (on_conn (on_ks f)).
Proof. apply quiet_conn. intros c. unfold on_ks. now destruct (f _). Qed.
Lemma quiet_get {B} (f : conn * @hs_data V -> H B) : (forall s, quiet (f s)) -> quiet (bind get f).
Proof. intros H st. exact (H st st). Qed.

Lemma cn_write_quiet r c : wh_tx (cn_wh (snd (cn_write_record C r c))) = wh_tx (cn_wh c) /\
  cn_opened (snd (cn_write_record C r c)) = cn_opened c /\ wh_ks (cn_wh (snd (cn_write_record C r c))) = wh_ks (cn_wh c) /\
  wh_policy (cn_wh (snd (cn_write_record C r c))) = wh_policy (cn_wh c).
Proof.
  unfold cn_write_record. unfold bind at 1 4 7 10, get. unfold bind, on_wh, on_wb.
  destruct (wb_write_record _ _ _ _ _) as [o1 b].
  destruct o1 as [[s tr1]|e|x| |]; repeat split.
Qed.

(** [m] builds one of the records allowed in state [s]; [f] is the bytes to send. *)
Definition builds {A} (L : nat) (s : hs_state) (f : A -> bytes) (m : H A) : Prop :=
  quiet m /\ forall c h x c1 h1, idle C L c -> m (c, h) = (Ok x, (c1, h1)) ->
  exists r w tr pl, may_send s r /\ payload_of C r w tr pl /\ length (k_iv (w_state w)) = iv_len C /\
    f x = rec_wire C r (w_state w) pl /\ length (f x) <= L.

(** Everything [m] does to the log is allowed in state [s]. *)
Definition outs {A} (L : nat) (s : hs_state) (m : H A) : Prop := forall c h o st, idle C L c ->
  m (c, h) = (o, st) ->
  exists evs, log_of (cn_wh (fst st)) = log_of (cn_wh c) ++ evs /\ cn_opened (fst st) = cn_opened c /\
    hs_out L s (match o with Ok _ => true | _ => false end) evs.

Lemma builds_write L s r c (h : @hs_data V) x c1 h1 : crypto_ok C -> idle C L c -> may_send s r -> has_binder r (wh_ks (cn_wh c)) ->
  on_conn (cn_write_record C r) (c, h) = (Ok x, (c1, h1)) ->
  exists r w tr pl, may_send s r /\ payload_of C r w tr pl /\ length (k_iv (w_state w)) = iv_len C /\
    x = rec_wire C r (w_state w) pl /\ length x <= L.
Proof.
  intros HC Hid Hms Hbk Hw. apply on_conn_ok in Hw as (c2 & Hw & _).
  destruct (cn_write_ok C L r c x c2 HC Hid (may_sendable s r Hms) Hbk Hw) as (pl & b & Hpl & Etx & Hb & Hle & Ec1).
  exists r, (wh_ks (cn_wh c)), (tr_of c), pl. split; [exact Hms|]. split; [exact Hpl|]. split; [exact (proj2 Hid)|].
  split; [exact Etx|exact Hle].
Qed.

Lemma quiet_write r : quiet (on_conn (cn_write_record C r)).
Proof. apply quiet_conn. intros c. destruct (cn_write_quiet r c) as (H1 & H2 & _). auto. Qed.

(** Building a record and sending it. *)
Lemma out_send {A} L s (f : A -> bytes) (m : H A) rest : builds L s f m ->
  (forall x (u : unit), quiet (rest x u : H hs_state)) ->
  outs L s (x <- m ;; u <- on_conn (on_wh (respond (f x))) ;; rest x u).
Proof.
  intros [Hqm Hm] Hq c h o st Hid H0. unfold bind at 1 in H0.
  destruct (Hqm (c, h)) as [Htx Ho]. destruct (m (c, h)) as [o1 [c1 h1]] eqn:Em. cbn [fst snd] in *.
  destruct o1 as [x|e|x| |];
    try (inversion H0; subst; exists []; cbn [fst]; rewrite app_nil_r; unfold log_of; rewrite Htx;
         split; [reflexivity|]; split; [assumption|]; now left).
  destruct (Hm c h x c1 h1 Hid Em) as (r & w & tr & pl & Hms & Hpl & Hiv & Efx & Hle).
  unfold bind, on_conn, on_wh in H0. cbn [fst snd] in H0.
  destruct (respond (f x) (cn_wh c1)) as [o2 w2] eqn:Er.
  destruct (respond_log _ _ _ _ Er) as (n & fl & Hlog & Hn & Hfl).
  assert (Hlog' : log_of w2 = log_of (cn_wh c) ++ TxWrite (f x) n :: fl).
  { rewrite Hlog. unfold log_of. now rewrite Htx. }
  assert (Hout : forall ok, (o2 <> Ok tt -> ok = false) -> hs_out L s ok (TxWrite (f x) n :: fl)).
  { intros ok Hok. right. exists r, w, tr, pl, n, fl. rewrite <- Efx.
    split; [exact Hms|]. split; [exact Hpl|]. split; [exact Hiv|].
    split; [exact Hle|]. split; [exact Hn|]. split; [reflexivity|].
    destruct Hfl as [(-> & -> & _)|[-> Hf]]; auto. }
  exists (TxWrite (f x) n :: fl).
  destruct o2 as [u|e|y| |];
    try (inversion H0; subst o st; cbn [fst cn_wh cn_opened]; split; [exact Hlog'|]; split; [exact Ho|]; apply Hout; auto).
  destruct (rest x u _) as [o3 st3] eqn:Erest. inversion H0. subst o3 st3. clear H0.
  match type of Erest with rest x u ?X = _ => destruct (Hq x u X) as [E1 E2] end.
  rewrite Erest in E1, E2. cbn [fst snd cn_wh cn_opened] in E1, E2.
  unfold log_of. rewrite E1. split; [exact Hlog'|]. split; [now rewrite E2|].
  apply Hout. destruct u. intros Hx. now destruct Hx.
Qed.

Lemma outs_quiet {A} L s (m : H A) : quiet m -> outs L s m.
Proof.
  intros Hq c h o st Hid Hm. destruct (Hq (c, h)) as [E1 E2]. rewrite Hm in E1, E2. cbn [fst snd] in *.
  exists []. unfold log_of. rewrite E1, app_nil_r. split; [reflexivity|]. split; [exact E2|]. now left.
Qed.

Lemma hpe_outs L s (m : H hs_state) : crypto_ok C -> quiet m ->
  (forall c h o1 c1 h1, idle C L c -> m (c, h) = (o1, (c1, h1)) -> (exists e, o1 = Err e) -> idle C L c1) ->
  (s = St_ServerHello \/ s = St_ServerVerify) ->
  outs L s (handle_processing_error C m).
Proof.
  intros HC Hq Hidm Hs c h o st Hid H0. unfold handle_processing_error in H0.
  destruct (Hq (c, h)) as [E1 E2].
  unfold bind at 1, attempt in H0. destruct (m (c, h)) as [o1 [c1 h1]] eqn:Em. cbn [fst snd] in *.
  assert (Hno : (o, st) = (o, (c1, h1)) -> exists evs, log_of (cn_wh (fst st)) = log_of (cn_wh c) ++ evs /\ cn_opened (fst st) = cn_opened c /\
    hs_out L s (match o with Ok _ => true | _ => false end) evs).
  { intros E. inversion E. subst st. exists []. unfold log_of. cbn [fst]. rewrite E1, app_nil_r. split; [reflexivity|].
    split; [exact E2|now left]. }
  destruct o1 as [s1|e|x| |]; try (inversion H0; subst; apply Hno; reflexivity).
  specialize (Hidm c h _ _ _ Hid Em (ex_intro _ e eq_refl)).
  destruct e; try (inversion H0; subst; apply Hno; reflexivity). clear Hno.
  assert (Hms : may_send s (CR_Alert l d false)) by (destruct Hs as [-> | ->]; exact I).
  destruct (out_send L s (fun x => x) (on_conn (cn_write_record C (CR_Alert l d false)))
     (fun _ _ => fail (AbortHandshake l d))) with (c := c1) (h := h1) (o := o) (st := st) as (evs & Hlog & Hop & Hout); auto.
  { split; [apply quiet_write|]. intros c2 h2 x c3 h3 Hid2 Hw. eapply builds_write; eauto. intros a b Ex; discriminate. }
  { intros x u. apply quiet_pure. reflexivity. }
  exists evs. unfold log_of in Hlog at 2. rewrite E1 in Hlog. split; [exact Hlog|]. split; [now rewrite Hop|exact Hout].
Qed.

(** A quiet first part that leaves the write half alone. *)
Lemma outs_rd {A B} L s (m : M rdst tls_error A) (f : A -> H B) :
  (forall a, outs L s (f a)) -> outs L s (a <- on_conn (on_rd m) ;; f a).
Proof.
  intros Hf c h o st Hid H0. unfold bind, on_conn, on_rd in H0. cbn [fst snd] in H0.
  destruct (m (cn_rd c)) as [o1 r1].
  destruct o1 as [a|e|x| |]; try (inversion H0; subst; exists []; cbn; rewrite app_nil_r; repeat split; now left).
  eapply (Hf a) in H0; [exact H0|exact Hid].
Qed.

Lemma psh_quiet rec : quiet (process_server_hello C rec).
Proof.
  unfold process_server_hello. destruct rec as [[]| | |]; try (apply quiet_pure; reflexivity).
  apply quiet_get. intros st. apply quiet_bind; [apply quiet_pure; reflexivity|]. intros [].
  apply quiet_bind; [apply quiet_pure; reflexivity|]. intros x.
  apply quiet_bind; [apply quiet_pure; reflexivity|]. intros y.
  apply quiet_bind; [apply quiet_ks|]. intros []. apply quiet_pure; reflexivity.
Qed.

Lemma psh_err_idle L rec c (h : @hs_data V) o1 c1 h1 : idle C L c -> process_server_hello C rec (c, h) = (o1, (c1, h1)) ->
  (exists e, o1 = Err e) -> idle C L c1.
Proof.
  intros Hid H0 [e ->]. unfold process_server_hello in H0.
  destruct rec as [[]| | |]; try (inversion H0; subst; exact Hid).
  unfold bind at 1, get in H0. unfold bind at 1, mod_hs, modify in H0. cbn [fst snd] in H0.
  unfold bind at 1, lift in H0. destruct (ok_or _ (hs_secret h)); try (inversion H0; subst; exact Hid).
  unfold bind at 1 in H0. destruct (ok_or _ _); try (inversion H0; subst; exact Hid).
  unfold bind at 1, on_conn, on_ks in H0. cbn [fst snd] in H0.
  destruct (initialize_handshake_secret _ _ _); inversion H0; subst; exact Hid.
Qed.

Lemma psv_quiet rec : quiet (process_server_verify C p rec).
Proof.
  intros [c h]. unfold process_server_verify. destruct (decrypt_record _ _ _ _) as [o [r [s h']]]. split; reflexivity.
Qed.

Lemma psv_idle L rec c h o1 c1 h1 : idle C L c -> process_server_verify C p rec (c, h) = (o1, (c1, h1)) -> idle C L c1.
Proof.
  intros Hid H0. unfold process_server_verify in H0. destruct (decrypt_record _ _ _ _) as [o [r [s h']]].
  inversion H0. exact Hid.
Qed.

Lemma bind_assoc' {S E A B D} (m : M S E A) (f : A -> M S E B) (g : B -> M S E D) s :
  bind (bind m f) g s = bind m (fun a => bind (f a) g) s.
Proof. unfold bind. now destruct (m s) as [[] s']. Qed.

Lemma process_outs L s : crypto_ok C -> outs L s (process C p cfg s).
Proof.
  intros HC. destruct s; cbn [process].
  - (* ClientHello *)
    apply (out_send L St_ClientHello (fun x => x) (do_client_hello C p cfg) (fun _ _ => ret St_ServerHello)); [|intros; apply quiet_pure; reflexivity].
    split.
    + unfold do_client_hello. apply quiet_bind; [apply quiet_ks|]. intros [].
      apply quiet_bind; [apply quiet_write|]. intros tx. apply quiet_bind; [apply quiet_pure; reflexivity|]. intros [].
      apply quiet_pure; reflexivity.
    + intros c h x c1 h1 Hid H1. unfold do_client_hello in H1.
      apply bind_ok in H1 as (u & st & Hk & H1). apply on_conn_ok in Hk as (ck & Hk & ->).
      apply on_ks_ok in Hk as (k1 & Hk & ->).
      apply bind_ok in H1 as (tx0 & [c3 h3] & Hw & H1).
      apply bind_ok in H1 as (u1 & st & Hm & H1). unfold ret in H1. inversion H1. subst tx0.
      destruct (ie_binder _ _ _ Hk) as [[bk Hbk] Hst].
      eapply (builds_write L St_ClientHello) in Hw; [exact Hw|exact HC| |reflexivity|].
      * destruct Hid as [Hp Hiv]. split; [exact Hp|]. unfold wst. cbn [cn_with_keysched cn_wh wh_with_ks wh_ks].
        rewrite Hst. exact Hiv.
      * intros y e _ _. exists bk. exact Hbk.
  - apply outs_rd. intros rec. apply hpe_outs; auto; [apply psh_quiet|]. intros; eapply psh_err_idle; eauto.
  - apply outs_rd. intros rec. apply hpe_outs; auto; [apply psv_quiet|]. intros; eapply psv_idle; eauto.
  - (* ClientCert *)
    apply (out_send L St_ClientCert snd (do_client_cert C p) (fun nt _ => ret (fst nt))); [|intros; apply quiet_pure; reflexivity].
    split.
    + unfold do_client_cert. apply quiet_get. intros st. apply quiet_bind; [apply quiet_pure; reflexivity|]. intros [].
      apply quiet_bind; [apply quiet_pure; reflexivity|]. intros ctx.
      destruct (p_client_cert p); (apply quiet_bind; [apply quiet_write|]); intros tx; apply quiet_pure; reflexivity.
    + intros c h x c1 h1 Hid H1. unfold do_client_cert in H1.
      apply bind_ok in H1 as (st & st0 & Hg & H1). unfold get in Hg. inversion Hg. subst st st0. clear Hg.
      apply bind_ok in H1 as (u & st & Hm & H1). unfold mod_hs, modify in Hm. inversion Hm. subst st. clear Hm.
      apply bind_ok in H1 as (ctx & st & Hc & H1). apply lift_ok in Hc as [Hc ->]. cbn [fst snd] in *.
      destruct (p_client_cert p); apply bind_ok in H1 as (tx & [c3 h3] & Hw & H1); inversion H1; subst x; cbn [snd];
        (eapply (builds_write L St_ClientCert) in Hw; [exact Hw|exact HC|exact Hid|exact I|]; intros a b Ex; discriminate).
  - (* ClientCertVerify *)
    apply (out_send L St_ClientCertVerify snd (do_client_cert_verify C p)
       (fun rt _ => match fst rt with inl s' => ret s' | inr e => fail e end)).
    2:{ intros [[x|x] y] u; apply quiet_pure; reflexivity. }
    split.
    + unfold do_client_cert_verify. apply quiet_get. intros st.
      destruct (p_signer p) as [[sign scheme]|e|x| |]; try (apply quiet_pure; reflexivity).
      * apply quiet_bind; [apply quiet_pure; reflexivity|]. intros m. destruct (sign m); [|apply quiet_pure; reflexivity]. destruct (_ <? _); [apply quiet_pure; reflexivity|].
        apply quiet_bind; [apply quiet_write|]. intros tx. apply quiet_pure; reflexivity.
      * apply quiet_bind; [apply quiet_write|]. intros tx. apply quiet_pure; reflexivity.
    + intros c h x c1 h1 Hid H1. unfold do_client_cert_verify in H1.
      apply bind_ok in H1 as (st & st0 & Hg & H1). unfold get in Hg. inversion Hg. subst st st0. clear Hg.
      destruct (p_signer p) as [[sign scheme]|e|y| |]; try discriminate.
      * apply bind_ok in H1 as (m & st & Hm & H1). apply lift_ok in Hm as [Hm ->].
        destruct (sign m); [|discriminate]. destruct (_ <? _); [discriminate|].
        apply bind_ok in H1 as (tx & [c3 h3] & Hw & H1); inversion H1; subst x; cbn [snd].
        eapply (builds_write L St_ClientCertVerify) in Hw; [exact Hw|exact HC|exact Hid|exact I|]. intros a b Ex; discriminate.
      * apply bind_ok in H1 as (tx & [c3 h3] & Hw & H1); inversion H1; subst x; cbn [snd].
        eapply (builds_write L St_ClientCertVerify) in Hw; [exact Hw|exact HC|exact Hid|exact I|]. intros a b Ex; discriminate.
  - (* ClientFinished *)
    apply (out_send L St_ClientFinished (fun x => x) (do_client_finished C) (fun _ _ => client_finished_finalize C)).
    2:{ intros x u. unfold client_finished_finalize. apply quiet_get. intros st.
        apply quiet_bind; [apply quiet_pure; reflexivity|]. intros []. apply quiet_bind; [apply quiet_pure; reflexivity|]. intros tr.
        apply quiet_bind; [apply quiet_rd|]. intros []. apply quiet_bind; [apply quiet_ks|]. intros []. apply quiet_pure; reflexivity. }
    split.
    + unfold do_client_finished. apply quiet_get. intros st. apply quiet_bind; [apply quiet_pure; reflexivity|]. intros v. apply quiet_write.
    + intros c h x c1 h1 Hid H1. unfold do_client_finished in H1.
      apply bind_ok in H1 as (st & st0 & Hg & H1). unfold get in Hg. inversion Hg. subst st st0. clear Hg.
      apply bind_ok in H1 as (v & st & Hv & H1). apply lift_ok in Hv as [Hv ->].
      eapply (builds_write L St_ClientFinished) in H1; [exact H1|exact HC|exact Hid|exact I|]. intros a b Ex; discriminate.
  - apply outs_quiet, quiet_pure. reflexivity.
Qed.

(** The whole of [open]: a sequence of such outputs. *)
Inductive hs_outs (L : nat) : bool -> list tx_event -> Prop :=
| ho_nil ok : hs_outs L ok []
| ho_one s evs : hs_out L s false evs -> hs_outs L false evs
| ho_cons ok s evs l : hs_out L s true evs -> hs_outs L ok l -> hs_outs L ok (evs ++ l).

Lemma open_loop_out L : crypto_ok C -> forall fuel s c h o st, idle C L c ->
  open_loop C p cfg fuel s (c, h) = (o, st) ->
  exists evs, log_of (cn_wh (fst st)) = log_of (cn_wh c) ++ evs /\ cn_opened (fst st) = cn_opened c /\
    hs_outs L (match o with Ok _ => true | _ => false end) evs.
Proof.
  intros HC. induction fuel as [|fuel IH]; intros s c h o st Hid H0.
  - exists []. rewrite app_nil_r. destruct s; inversion H0; subst; (split; [reflexivity|split; [reflexivity|constructor]]).
  - assert (Hgo : s <> St_ApplicationData ->
      (s' <- process C p cfg s ;; open_loop C p cfg fuel s') (c, h) = (o, st) ->
      exists evs, log_of (cn_wh (fst st)) = log_of (cn_wh c) ++ evs /\ cn_opened (fst st) = cn_opened c /\
       hs_outs L (match o with Ok _ => true | _ => false end) evs).
    { intros Hs H1. unfold bind in H1. destruct (process C p cfg s (c, h)) as [o1 [c1 h1]] eqn:Ep.
      destruct (process_outs L s HC c h _ _ Hid Ep) as (evs & Hlog & Hop & Hout). cbn [fst] in *.
      destruct o1 as [s1|e|x| |];
        try (inversion H1; subst o st; exists evs; cbn [fst]; split; [exact Hlog|]; split; [exact Hop|]; now apply (ho_one L s)).
      apply (process_pstep L) in Ep; auto.
      destruct (pstep_idle _ _ _ _ _ _ _ HC Hid Ep) as (Hid1 & _).
      destruct (IH _ _ _ _ _ Hid1 H1) as (evs2 & Hlog2 & Hop2 & Hout2).
      exists (evs ++ evs2). split; [now rewrite Hlog2, Hlog, app_assoc|]. split; [congruence|]. econstructor; eauto. }
    destruct s; cbn [open_loop] in H0; try (apply Hgo; [discriminate|exact H0]).
    inversion H0. subst. exists []. rewrite app_nil_r. split; [reflexivity|]. split; [reflexivity|constructor].
Qed.

(** ** [open] *)

(** The host name is handed to the verifier first. *)
Definition host_step (v : V) : outcome tls_error unit * V :=
  match p_has_verifier p, cfg_server_name cfg with
  | true, Some n => p_set_hostname p n v
  | _, _ => (Ok tt, v)
  end.

Definition set_opened (c : conn) : conn := mk_conn (cn_rd c) (cn_dec c) (cn_wh c) (cn_shared c) true.

Lemma open_ok L v c u c' : crypto_ok C -> idle C L c -> cn_open C p cfg v c = (Ok u, c') ->
  exists v' c1 h', host_step v = (Ok tt, v') /\ hrun L St_ClientHello c (hs_new v') c1 h' /\ c' = set_opened c1.
Proof.
  intros HC Hid H0. unfold cn_open in H0. fold (host_step v) in H0. destruct (host_step v) as [o0 v'].
  destruct ((lift o0 ;;; _) _) as [o [c1 h1]] eqn:E.
  destruct o as [[]| | | |]; try discriminate.
  apply bind_ok in E as (u0 & st & E0 & E). apply lift_ok in E0 as [-> ->]. destruct u0.
  exists v', c1, h1. split; [reflexivity|]. split; [eapply open_loop_hrun; eauto|]. now inversion H0.
Qed.

Lemma open_not_ok L v c o c' : crypto_ok C -> idle C L c -> cn_open C p cfg v c = (o, c') ->
  exists evs, log_of (cn_wh c') = log_of (cn_wh c) ++ evs /\
    hs_outs L (match o with Ok _ => true | _ => false end) evs /\
    ((forall u, o <> Ok u) -> cn_opened c' = cn_opened c).
Proof.
  intros HC Hid H0. unfold cn_open in H0. fold (host_step v) in H0. destruct (host_step v) as [o0 v'].
  destruct ((lift o0 ;;; _) _) as [o1 [c1 h1]] eqn:E.
  assert (G : exists evs, log_of (cn_wh c1) = log_of (cn_wh c) ++ evs /\ cn_opened c1 = cn_opened c /\
    hs_outs L (match o1 with Ok _ => true | _ => false end) evs).
  { unfold bind at 1, lift in E. destruct o0 as [u| | | |];
     try (inversion E; subst; exists []; rewrite app_nil_r; repeat split; constructor).
    destruct (open_loop_out L HC _ _ _ _ _ _ Hid E) as (evs & H1 & H2 & H3). exists evs. auto. }
  destruct G as (evs & Hlog & Hop & Hout). exists evs.
  destruct o1 as [u| | | |]; inversion H0; subst; (split; [exact Hlog|split; [exact Hout|]]); auto.
  intros Hn. now destruct (Hn tt).
Qed.
End Steps.

(** A new connection is idle. *)
Lemma cn_new_idle C rbuf wbuf rx tx c : cn_new C rbuf wbuf rx tx = Ok c ->
  idle C (length wbuf) c /\ cn_opened c = false /\ wh_policy (cn_wh c) = Strict /\ wh_tx (cn_wh c) = tx /\
  cn_dec c = dec_default /\ cn_rd c = rd_new rbuf rx (ks_r (ks_new C)) /\ cn_keysched c = ks_new C /\
  128 < length wbuf.
Proof.
  unfold cn_new, wb_new. destruct (TLS_RECORD_OVERHEAD <? length wbuf) eqn:E; [|discriminate].
  cbn [obind]. intros H. apply Nat.ltb_lt in E. inversion H. subst. cbn.
  split; [split; [repeat split|cbn; apply repeat_length]|]. repeat split. exact E.
Qed.
