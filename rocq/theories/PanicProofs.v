(** * The panics of [open] *)
From Coq Require Import String List NArith Arith Bool Lia ZArith.
From Coq.Strings Require Import Byte.
From Coq Require Import ZifyBool ZifyNat ZifyN.
From Verif Require Import Base ParseBuffer Buffer Codes Extensions Crypto KeySchedule Config Handshake Record WriteBuffer
  Transport RecordReader ReadBuffer Connection Api BaseProofs ParseProofs SpecWire SpecCodes SpecMessages WireProofs BufferProofs ExtProofs SpecKeys
  SpecRecord SpecRead KeyProofs RecordProofs SpecSend SendProofs SpecHello HelloProofs PropHello WriteProofs PropKeys PropCert PropParse HsWrite HsProofs ConnProofs FrameProofs DecryptProofs
  FlagProofs ReadProofs RecvProofs SpecHandshake AcceptProofs LocalProofs FlightProofs OpenProofs SpecOpen SpecPanic.
From Verif Require TermProofs.
Import ListNotations.
Local Open Scope list_scope.

(** ** Code that does not panic *)

Definition np {E A} (o : outcome E A) : Prop := forall x, o <> Panic x.

Lemma np_obind {E A B} (o : outcome E A) (f : A -> outcome E B) : np o -> (forall a, np (f a)) -> np (obind o f).
Proof. intros H1 H2 x. destruct o; cbn [obind]; try discriminate; [apply H2|]. intros [= ->]. now apply (H1 x). Qed.
Lemma np_omap_err {E E' A} (g : E -> E') (o : outcome E A) : np o -> np (omap_err g o).
Proof. intros H x. destruct o; cbn [omap_err]; try discriminate. intros [= ->]. now apply (H x). Qed.
Lemma np_ok {E A} (a : A) : np (Ok a : outcome E A). Proof. discriminate. Qed.
Lemma np_err {E A} (e : E) : np (Err e : outcome E A). Proof. discriminate. Qed.
Lemma np_ok_or {E A} (e : E) (o : option A) : np (ok_or e o). Proof. destruct o; discriminate. Qed.
Lemma np_hv cap v bs : np (hv_extend cap v bs). Proof. unfold hv_extend. destruct (_ <=? _); discriminate. Qed.

Ltac nps := repeat first [apply np_ok|apply np_err|apply np_ok_or|apply np_hv|apply np_omap_err
  |apply np_obind; [|intros ?]
  |match goal with |- np (if ?b then _ else _) => destruct b | |- np (match ?x with _ => _ end) => destruct x end].

Section Keys.
Context (C : crypto).
Lemma np_label s n l x : np (make_label C s n l x). Proof. unfold make_label. nps. Qed.
Lemma np_derive s l x : np (derive_secret C s l x). Proof. apply np_label. Qed.
Lemma np_prk p : np (from_prk C p). Proof. unfold from_prk. nps. Qed.
Lemma np_derived s : np (shared_derived C s). Proof. unfold shared_derived. apply np_obind; [apply np_derive|]. intros; nps. Qed.
Lemma np_traffic s l tr : np (calculate_traffic_secret C s l tr).
Proof. unfold calculate_traffic_secret. repeat (apply np_obind; [first [apply np_derive|apply np_prk|apply np_label]|intros ?]). nps. Qed.
Lemma np_traffics k a b : np (calculate_traffic_secrets C k a b).
Proof. unfold calculate_traffic_secrets. repeat (apply np_obind; [apply np_traffic|intros ?]). nps. Qed.
Lemma np_early k p : np (initialize_early_secret C k p).
Proof. unfold initialize_early_secret. apply np_obind; [apply np_derive|intros ?]. apply np_obind; [apply np_prk|intros ?]. apply np_obind; [apply np_derived|intros ?]. nps. Qed.
Lemma np_hsecret k i : np (initialize_handshake_secret C k i).
Proof. unfold initialize_handshake_secret. apply np_obind; [apply np_traffics|intros ?]. apply np_obind; [apply np_derived|intros ?]. nps. Qed.
Lemma np_master k : np (initialize_master_secret C k).
Proof. unfold initialize_master_secret. apply np_obind; [apply np_traffics|intros ?]. apply np_obind; [apply np_derived|intros ?]. nps. Qed.
Lemma np_client_finished k : np (create_client_finished C k).
Proof. unfold create_client_finished. apply np_obind; [apply np_label|intros ?]. nps. Qed.
Lemma np_verify r v h : np (verify_server_finished C r v h).
Proof. unfold verify_server_finished. apply np_obind; [apply np_label|intros ?]. nps. Qed.
End Keys.

Lemma bind_panic {S E A B} (m : M S E A) (f : A -> M S E B) st x st' : bind m f st = (Panic x, st') ->
  m st = (Panic x, st') \/ exists a st1, m st = (Ok a, st1) /\ f a st1 = (Panic x, st').
Proof.
  unfold bind. destruct (m st) as [o st1]. destruct o as [a|e|y| |]; intros H; try discriminate; [right; eauto|left; congruence].
Qed.
Lemma lift_panic {S E A} (o : outcome E A) (st : S) x st' : np o -> lift o st = (Panic x, st') -> False.
Proof. unfold lift. intros H [= E0 _]. now apply (H x). Qed.

(** ** Writing a record *)

(** Encoding comes to nothing: there is no room, or the entry has no encoding. *)
Definition blocked {A} (m : W A) : Prop := forall Pr R off len, length Pr = off + len ->
  exists c, (exists e, m (mk_cbuf (Pr ++ R) off len) = (Err e, c)) \/ m (mk_cbuf (Pr ++ R) off len) = (Panic PUnimplemented, c).

Lemma blocked_bind {A B} (m : W A) (f : A -> W B) bs a : encodes m bs a -> blocked (f a) -> blocked (bind m f).
Proof.
  intros H1 H2 Pr R off len Hl. destruct (H1 Pr R off len Hl) as [Ha Hb]. unfold bind.
  destruct (le_lt_dec (length bs) (length R)) as [Hr|Hr].
  - rewrite Ha by exact Hr. rewrite app_assoc. apply H2. rewrite app_length. lia.
  - destruct (Hb Hr) as (e & R' & len' & -> & _). eexists. left. eauto.
Qed.
Lemma blocked_first {A B} (m : W A) (f : A -> W B) : blocked m -> blocked (bind m f).
Proof. intros H Pr R off len Hl. unfold bind. destruct (H Pr R off len Hl) as (c & [[e ->]| ->]); exists c; eauto. Qed.
Lemma blocked_gets {A B} (g : cbuf -> A) (f : A -> W B) : (forall a, blocked (f a)) -> blocked (bind (gets g) f).
Proof. intros H Pr R off len Hl. unfold bind, gets. now apply H. Qed.
Lemma blocked_u24 {A} (m : W A) : blocked m -> blocked (with_u24_length m).
Proof.
  intros H. unfold with_u24_length. apply blocked_gets. intros p. eapply blocked_bind; [apply encodes_u24|].
  apply blocked_gets. intros q. now apply blocked_first.
Qed.
Lemma blocked_raw_cert C raw ctx key : blocked (enc_client_handshake C (CH_Cert (mk_cert raw ctx [CE_RawPublicKey key]))).
Proof.
  unfold enc_client_handshake. eapply blocked_bind; [apply encodes_enc_err, encodes_push|]. apply blocked_u24.
  unfold enc_certificate. eapply blocked_bind; [apply encodes_with_u8, encodes_extend|]. apply blocked_u24.
  cbn [ce_entries for_each]. apply blocked_first. unfold enc_cert_entry. apply blocked_first. intros Pr R off len _. eexists. right. reflexivity.
Qed.

(** The entries of a client certificate have an encoding. *)
Definition encodable (r : client_record) : Prop :=
  match r with
  | CR_Handshake (CH_Cert c) _ => exists ders, ce_entries c = map CE_X509 ders
  | _ => True
  end.

Lemma encodes_msg_total C h e : not_hello h -> encodable (CR_Handshake h e) -> encodes (enc_client_handshake C h) (msg_wire h) tt.
Proof.
  intros Hn He. destruct (encodes_msg C h Hn) as [H|H]; [exact H|]. exfalso.
  destruct h as [c|v|x|f]; [| |contradiction|].
  - destruct He as [ders E]. destruct c as [raw ctx es]. cbn [ce_entries] in E. subst es.
    assert (Hx : encodes (enc_client_handshake C (CH_Cert (mk_cert raw ctx (map CE_X509 ders))))
      (b8 (handshake_type_code HT_Certificate) :: be24 (N.of_nat (length (certificate_wire ctx (plain ders)))) ++ certificate_wire ctx (plain ders)) tt).
    { unfold enc_client_handshake. change (?x :: ?l) with ([x] ++ l). eapply encodes_bind; [apply encodes_enc_err, encodes_push|].
      apply encodes_with_u24, encodes_cert. }
    set (w := _ :: _) in Hx. destruct (Hx [] w 0 0 eq_refl) as [Hok _]. apply (H (mk_cbuf ([] ++ w) 0 0) tt). now rewrite Hok by lia.
  - assert (Hx : exists w, encodes (enc_client_handshake C (CH_CertVerify v)) w tt).
    { eexists. unfold enc_client_handshake. eapply encodes_bind; [apply encodes_enc_err, encodes_push|].
      apply encodes_with_u24. unfold enc_certificate_verify. eapply encodes_bind; [apply encodes_u16|]. apply encodes_with_u16, encodes_extend. }
    destruct Hx as [w Hx]. destruct (Hx [] w 0 0 eq_refl) as [Hok _]. apply (H (mk_cbuf ([] ++ w) 0 0) tt). now rewrite Hok by lia.
  - assert (Hx : exists w, encodes (enc_client_handshake C (CH_Finished f)) w tt).
    { eexists. unfold enc_client_handshake. eapply encodes_bind; [apply encodes_enc_err, encodes_push|].
      apply encodes_with_u24. unfold enc_finished. apply encodes_enc_err, encodes_extend. }
    destruct Hx as [w Hx]. destruct (Hx [] w 0 0 eq_refl) as [Hok _]. apply (H (mk_cbuf ([] ++ w) 0 0) tt). now rewrite Hok by lia.
Qed.

Lemma wr_np_gen C r w tr pl tr1 buf : crypto_ok C -> length (k_iv (w_state w)) = iv_len C ->
  encodes (cr_encode_payload C r) pl tt -> cr_finish C r w pl tr = Ok (pl, tr1) ->
  np (fst (wb_write_record C r w tr (mk_wbuf buf 0 None))).
Proof.
  intros HC Hiv Henc Hfin.
  destruct (le_lt_dec (5 + length pl) (length buf)) as [Hfit|Hfit].
  2:{ destruct (write_record_no_room C r w tr pl buf Henc Hfit) as (e & W' & He & _). rewrite He. apply np_err. }
  destruct (rh_is_encrypted (cr_header r)) eqn:Ee.
  - destruct (le_lt_dec (5 + length pl + 17) (length buf)) as [Hfit2|Hfit2].
    + rewrite (write_record_protected C r w tr pl pl tr1 buf HC Hiv Henc Hfin eq_refl Ee Hfit2). apply np_ok.
    + unfold wb_write_record, bind at 1, get at 1. cbn [wb_hdr].
      unfold bind at 1. rewrite start_record_ok by lia. unfold bind at 1.
      erewrite payload_stage; [|exact Henc|exact Hfin|reflexivity|rewrite skipn_length; lia].
      unfold bind at 1.
      destruct (close_protected_err C (w_state w) (cr_header r) pl (skipn (length pl) (skipn 5 buf)) HC Hiv Ee) as (e & w' & ->); [rewrite !skipn_length; lia|].
      apply np_err.
  - rewrite (write_record_plain C r w tr pl pl tr1 buf Henc Hfin eq_refl Ee Hfit). apply np_ok.
Qed.

Lemma wr_np C r w tr b : crypto_ok C -> length (k_iv (w_state w)) = iv_len C ->
  wb_pos b = 0 -> wb_hdr b = None -> sendable r -> has_binder r w -> encodable r ->
  np (fst (wb_write_record C r w tr b)).
Proof.
  intros HC Hiv Hp Hh Hsd Hbk Henc. rewrite (wbuf_eta b), Hp, Hh.
  destruct r as [m e|l d e].
  2:{ eapply wr_np_gen; eauto; [apply encodes_alert|reflexivity]. }
  destruct m as [c|v|h|f]; try (eapply wr_np_gen; eauto; [apply (encodes_msg_total C _ e); [exact I|exact Henc]|destruct e; reflexivity]).
  cbn in Hsd. subst e.
  assert (Hl : hash_len C < 256) by (destruct (ok_sizes C HC); lia).
  assert (Hb : exists bk, cfg_psk (ch_config h) <> None -> w_binder w = Some bk).
  { specialize (Hbk h false eq_refl). destruct (cfg_psk (ch_config h)); [|exists []; intros []; reflexivity].
    destruct Hbk as [bk Hbk]; [discriminate|]. now exists bk. }
  destruct Hb as [bk Hb].
  destruct (PropHello.hello_record C h w tr bk (wb_buf b) HC Hl Hb) as (msg & binders & _ & _ & _ & Hok & Herr).
  destruct (le_lt_dec (5 + length msg) (length (wb_buf b))) as [Hfit|Hfit].
  - rewrite (Hok Hfit). apply np_ok.
  - destruct (Herr Hfit) as (e & w' & E & _). rewrite E. apply np_err.
Qed.

Lemma wr_raw_cert C w tr b raw ctx key x b' : wb_pos b = 0 -> wb_hdr b = None -> 128 < length (wb_buf b) ->
  wb_write_record C (CR_Handshake (CH_Cert (mk_cert raw ctx [CE_RawPublicKey key])) true) w tr b = (Panic x, b') -> x = PUnimplemented.
Proof.
  intros Hp Hh Hl H. rewrite (wbuf_eta b), Hp, Hh in H. unfold wb_write_record, bind at 1, get at 1 in H. cbn [wb_hdr] in H.
  unfold bind at 1 in H. rewrite start_record_ok in H by lia. unfold bind at 1 in H.
  destruct (blocked_raw_cert C raw ctx key (hdr5 (cr_header (CR_Handshake (CH_Cert (mk_cert raw ctx [CE_RawPublicKey key])) true)) 0) (skipn 5 (wb_buf b)) 5 0) as (c & Hc); [now rewrite hdr5_length|].
  unfold with_buffer, cb_wrap_with_pos in H. cbn [wb_buf wb_pos wb_hdr] in H. unfold bind at 1 in H. rewrite forward_ok in H. unfold bind at 1 in H.
  cbn [cr_encode_payload] in H. destruct Hc as [[e E]|E]; rewrite E in H; [discriminate|]. congruence.
Qed.

Section Sending.
Context {V : Type} (C : crypto).

Lemma cn_write_panic L r c x c' : crypto_ok C -> idle C L c -> sendable r -> has_binder r (wh_ks (cn_wh c)) -> encodable r ->
  cn_write_record C r c = (Panic x, c') -> False.
Proof.
  intros HC [(Hl & Hp & Hh) Hiv] Hsd Hbk Henc H. unfold cn_write_record in H.
  apply bind_panic in H as [H|(c0 & c1 & H0 & H)]; [discriminate|]. inversion H0. subst c0 c1. clear H0.
  pose proof (wr_np C r (wh_ks (cn_wh c)) (tr_of c) (wh_wb (cn_wh c)) HC Hiv Hp Hh Hsd Hbk Henc) as Hn.
  apply bind_panic in H as [H|([s tr'] & c1 & H0 & H)].
  - unfold on_wh, on_wb in H. fold (tr_of c) in H. destruct (wb_write_record C r _ _ _) as [o b]. cbn [fst] in Hn.
    destruct o; try discriminate. now apply (Hn s).
  - apply bind_panic in H as [H|(u & c2 & _ & H)]; discriminate.
Qed.

Lemma respond_panic s w x w' : (k_counter (wst w) < u64_max)%N -> respond s w = (Panic x, w') -> False.
Proof.
  intros Hc H. rewrite respond_send in H. destruct (send_cases s true w) as (o & w1 & He & Hs & _).
  rewrite He in H. inversion H. subst o w1. clear H.
  inversion Hs as [o' n Hio Hn Hnok Hk Hlog Eo|Hmax Hk Hlog Eo|Hcnt Hk Hlog Eo|o' Hcnt Hk Hio Hst Hnok Hlog Eo]; subst; [|lia|].
  - destruct Hio as [[k H]|H]; discriminate.
  - destruct Hio as [[k H]|H]; discriminate.
Qed.

(** Sending the record just written. *)
Lemma on_respond_panic L r c tx c1 (h : @hs_data V) x st : crypto_ok C -> idle C L c -> sendable r ->
  has_binder r (wh_ks (cn_wh c)) -> (k_counter (wst (cn_wh c)) < u64_max)%N ->
  cn_write_record C r c = (Ok tx, c1) -> on_conn (V:=V) (on_wh (respond tx)) (c1, h) = (Panic x, st) -> False.
Proof.
  intros HC Hid Hsd Hbk Hcnt Hw H. destruct (cn_write_ok C L r c tx c1 HC Hid Hsd Hbk Hw) as (pl & b & _ & _ & _ & _ & ->).
  unfold on_conn, on_wh in H. cbn [fst snd cn_wh] in H.
  match type of H with context [respond tx ?w] => destruct (respond tx w) as [o w2] eqn:Er end.
  inversion H. subst o. revert Er. apply respond_panic. exact Hcnt.
Qed.
Lemma on_write_panic L r c (h : @hs_data V) x st : crypto_ok C -> idle C L c -> sendable r -> has_binder r (wh_ks (cn_wh c)) -> encodable r ->
  on_conn (V:=V) (cn_write_record C r) (c, h) = (Panic x, st) -> False.
Proof.
  intros HC Hid Hsd Hbk Henc H. unfold on_conn in H. cbn [fst snd] in H. destruct (cn_write_record C r c) as [o c1] eqn:E.
  inversion H. subst. revert E. now apply (cn_write_panic L).
Qed.
End Sending.

(** ** The server's flight *)

Section Open.
Context {V : Type} (C : crypto) (p : provider V) (cfg : tls_config) (W : bytes) (L : nat).
Let psk := option_map fst (cfg_psk cfg).

Definition so_far (c : conn) : Prop :=
  exists x h0 junk rs ms,
    secrets_ok C psk (p_secret p) x /\
    reads_as C (x_shello x) (M_ServerHello (x_suite x) (x_items x)) /\
    share_of (x_items x) (x_group x) (x_share x) /\
    W = wire_of ((h0, x_shello x ++ junk) :: rs) ++ stream (rd_rx (cn_rd c)) /\
    framed h0 (x_shello x ++ junk) /\ hd_error h0 = Some ty_handshake /\
    carried C (x_skey x) (x_siv x) 0 rs ms /\
    k_counter (rkey c) = protected_count rs /\ k_key (rkey c) = x_skey x /\ k_iv (rkey c) = x_siv x /\
    k_traffic (rkey c) = Some (x_server x) /\ length (k_iv (rkey c)) = iv_len C.

Definition at_state (s : hs_state) (c : conn) (h : @hs_data V) : Prop :=
  idle C L c /\
  match s with
  | St_ClientHello => k_counter (wst (cn_wh c)) = 0%N /\ cn_keysched c = ks_new C /\ stream (rd_rx (cn_rd c)) = W /\ between (cn_rd c)
  | St_ServerHello => (k_counter (wst (cn_wh c)) <= 1)%N /\ hs_secret h = Some (p_secret p) /\ stream (rd_rx (cn_rd c)) = W /\ between (cn_rd c) /\
      exists k1, initialize_early_secret C (ks_new C) psk = Ok k1 /\ cn_shared c = ks_shared k1
  | St_ServerVerify => k_counter (wst (cn_wh c)) = 0%N /\ so_far c /\ between (cn_rd c)
  | St_ClientCert => k_counter (wst (cn_wh c)) = 0%N
  | St_ClientCertVerify => (k_counter (wst (cn_wh c)) <= 1)%N
  | St_ClientFinished => (k_counter (wst (cn_wh c)) <= 2)%N
  | St_ApplicationData => True
  end.

Lemma protected_count_app a b : protected_count (a ++ b) = (protected_count a + protected_count b)%N.
Proof. unfold protected_count. rewrite filter_app, app_length. lia. Qed.
Lemma carried_app key iv n rs ms rs2 ms2 : carried C key iv n rs ms -> carried C key iv (n + protected_count rs) rs2 ms2 ->
  carried C key iv n (rs ++ rs2) (ms ++ ms2).
Proof.
  intros H. induction H as [n|n h f rs ms Hf Hh H IH|n h m junk rs ms Hf Hh H IH|n h f inner ms1 rs ms Hf Hh Ho Hu H IH]; intros H2; cbn [app].
  - unfold protected_count in H2. cbn in H2. now rewrite N.add_0_r in H2.
  - apply ca_ccs; auto. apply IH. unfold protected_count in *. cbn [filter fst] in H2. rewrite Hh in H2. exact H2.
  - apply ca_clear; auto. apply IH. unfold protected_count in *. cbn [filter fst] in H2. rewrite Hh in H2. exact H2.
  - rewrite <- app_assoc. eapply ca_sealed; eauto. apply IH. unfold protected_count in *. cbn [filter fst] in H2. rewrite Hh in H2.
    change (Byte.eqb ty_data ty_data) with true in H2. cbv iota in H2. cbn [length] in H2.
    replace (n + 1 + _)%N with (n + N.of_nat (S (length (filter (fun r => match hd_error (fst r) with Some t => Byte.eqb t ty_data | None => false end) rs))))%N by lia. exact H2.
Qed.
Lemma protected_count_wire rs : (protected_count rs <= N.of_nat (length (wire_of rs)))%N \/ exists r, In r rs /\ length (fst r) < 5.
Proof.
  unfold protected_count, wire_of. induction rs as [|[h f] rs IH]; [left; cbn; lia|].
  destruct IH as [IH|(r & Hr & Hl)]; [|right; exists r; split; [right; exact Hr|exact Hl]].
  destruct (le_lt_dec 5 (length h)) as [H5|H5]; [|right; exists (h, f); split; [left; reflexivity|exact H5]].
  left. cbn [filter map concat fst snd]. rewrite !app_length. destruct (match hd_error h with Some t => Byte.eqb t ty_data | None => false end); cbn [length]; lia.
Qed.
Lemma carried_framed key iv n rs ms : carried C key iv n rs ms -> forall r, In r rs -> length (fst r) = 5.
Proof. intros H. induction H; intros r Hr; [destruct Hr|..]; destruct Hr as [<-|Hr]; auto; cbn [fst]; match goal with Hf : framed _ _ |- _ => exact (proj1 Hf) end. Qed.

(** The messages of a record leave the counter of the records read alone. *)
Definition keeps {A} (m : M (rdst * (hs_state * @hs_data V)) tls_error A) : Prop :=
  forall st, r_state (rd_ks (fst (snd (m st)))) = r_state (rd_ks (fst st)).
Lemma keeps_bind {A B} (m : M (rdst * (hs_state * @hs_data V)) tls_error A) (f : A -> M (rdst * (hs_state * @hs_data V)) tls_error B) :
  keeps m -> (forall a, keeps (f a)) -> keeps (bind m f).
Proof.
  intros H1 H2 st. unfold bind. specialize (H1 st). destruct (m st) as [o st1]. cbn [snd] in H1. destruct o; try exact H1. now rewrite H2.
Qed.
Lemma keeps_lift {A} (o : outcome tls_error A) : keeps (lift o). Proof. intros st. reflexivity. Qed.
Lemma keeps_cb rec : keeps (call_cb (server_verify_cb C p) rec).
Proof. intros [s x]. unfold call_cb. cbn [fst snd]. destruct (server_verify_cb C p _ _ _). reflexivity. Qed.
Lemma keeps_loop : forall fuel q, keeps (handshake_loop C (server_verify_cb C p) fuel q).
Proof.
  induction fuel as [|fuel IH]; intros q; cbn [handshake_loop]; apply keeps_bind; try apply keeps_lift; intros r; destruct (r =? 0); try apply keeps_lift;
    try (intros st; reflexivity).
  apply keeps_bind; [intros st; reflexivity|intros st0]. destruct (read_server_handshake _ _ _) as [o q'].
  apply keeps_bind; [apply keeps_lift|intros ht]. apply keeps_bind; [intros [s x]; reflexivity|intros []].
  apply keeps_bind; [apply keeps_cb|intros []]. apply IH.
Qed.
Definition content_of (h : bytes) (off : nat) (buf content : bytes) (t : content_type) : M (rdst * (hs_state * @hs_data V)) tls_error unit :=
  match t with
  | CT_Handshake => handshake_loop C (server_verify_cb C p) (Datatypes.S (length content)) (pb_new content)
  | CT_ApplicationData => call_cb (server_verify_cb C p) (SR_AppData h off (mk_cbuf buf 0 (length content)))
  | CT_Alert => ld <- lift (fst (parse_alert (pb_new content))) ;; call_cb (server_verify_cb C p) (SR_Alert (fst ld) (snd ld))
  | _ => fail Unimplemented
  end.
Lemma keeps_content h off buf content t : keeps (content_of h off buf content t).
Proof.
  destruct t; unfold content_of; try apply keeps_loop; try apply keeps_cb; try (intros st; reflexivity).
  apply keeps_bind; [apply keeps_lift|intros ld; apply keeps_cb].
Qed.
Lemma decrypted_ks s off f inner : rd_ks (decrypted s off f inner) = rd_ks s.
Proof. reflexivity. Qed.

(** What is read of the flight is one record longer. *)
Lemma so_far_step c (h : @hs_data V) rec r1 r2 st' : crypto_ok C -> so_far c -> between (cn_rd c) -> rd_read C (cn_rd c) = (Ok rec, r1) ->
  decrypt_record C (server_verify_cb C p) rec (r1, (St_ServerVerify, h)) = (Ok tt, (r2, st')) ->
  so_far (mk_conn r2 (cn_dec c) (cn_wh c) (cn_shared c) (cn_opened c)) /\ between r2.
Proof.
  intros HC (x & h0 & junk & rs & ms & Hsec & Hra & Hsh & HW & Hf0 & Hh0 & Hcar & Hcnt & Hkey & Hiv & Htr & Hlen) Hb Hrd Hd.
  destruct (verify_record C p (x_server x) (cn_rd c) _ rec r1 r2 st' HC Hb Hlen Htr Hrd Hd) as (hh & f & ms1 & Hstr & Hb2 & _ & Hca & _ & _ & K1 & K2 & K3 & K4 & _).
  split; [|exact Hb2]. fold (rkey c) in *. change (r_state (rd_ks (cn_rd c))) with (rkey c) in *.
  specialize (Hca [] [] ltac:(constructor)). rewrite app_nil_r in Hca. rewrite Hkey, Hiv, Hcnt in Hca.
  assert (Hc2 : k_counter (r_state (rd_ks r2)) = protected_count (rs ++ [(hh, f)])).
  { rewrite protected_count_app, <- Hcnt, K4. unfold protected_count. cbn [filter fst]. destruct (hd_error hh) as [b|]; [destruct (Byte.eqb b ty_data)|]; reflexivity. }
  exists x, h0, junk, (rs ++ [(hh, f)]), (ms ++ map fst ms1).
  repeat (split; [assumption|]). split.
  { rewrite HW, Hstr. unfold wire_of. cbn [map concat cn_rd fst snd]. rewrite map_app, concat_app. cbn [map concat fst snd]. rewrite app_nil_r, <- !app_assoc. reflexivity. }
  repeat (split; [assumption|]). split; [apply carried_app; assumption|]. unfold rkey. cbn [cn_rd]. rewrite K1, K2, K3. auto.
Qed.

Lemma cb_panic k rec st x st' : server_verify_cb C p k rec st = (Panic x, st') -> provider_panics p x.
Proof.
  intros H. destruct rec as [[e| | |ce|ctx|v|f]| |l d|h off data]; cbn [server_verify_cb] in H; try discriminate.
  - destruct (p_has_verifier p); [|discriminate]. unfold on_v in H. destruct (p_verify_cert p _ ce (hs_v (snd st))) as [o v] eqn:E. inversion H. subst o.
    right. left. exists (r_transcript k), ce, (hs_v (snd st)). now rewrite E.
  - apply bind_panic in H as [H|(r & st1 & _ & H)]; [|discriminate]. exfalso. revert H. apply lift_panic. unfold cert_request_try_from. nps.
  - destruct (p_has_verifier p); [|discriminate]. unfold on_v in H. destruct (p_verify_sig p v (hs_v (snd st))) as [o v0] eqn:E. inversion H. subst o.
    right. right. left. exists v, (hs_v (snd st)). now rewrite E.
  - apply bind_panic in H as [H|(r & st1 & _ & H)]; [exfalso; revert H; apply lift_panic, np_verify|].
    destruct (negb r); [discriminate|]. apply bind_panic in H as [H|(st2 & st3 & _ & H)]; [discriminate|].
    destruct (hs_certreq (snd st2)); [discriminate|]. apply bind_panic in H as [H|(u & st4 & _ & H)]; discriminate.
Qed.
Lemma call_cb_panic rec st x st' : call_cb (server_verify_cb C p) rec st = (Panic x, st') -> provider_panics p x.
Proof. unfold call_cb. intros H. destruct (server_verify_cb C p _ _ _) as [o s] eqn:E. inversion H. subst o. now apply cb_panic in E. Qed.

Lemma loop_panic : forall fuel q st x st', pwf q -> handshake_loop C (server_verify_cb C p) fuel q st = (Panic x, st') -> provider_panics p x.
Proof.
  induction fuel as [|fuel IH]; intros q st x st' Hq H; cbn [handshake_loop] in H; unfold pb_remaining in H; unfold pwf in Hq; rewrite usize_sub_ok in H by exact Hq;
    (apply bind_panic in H as [H|(r & sr & Hl & H)]; [discriminate|]); destruct (r =? 0); try discriminate.
  apply bind_panic in H as [H|(st0 & st3 & H0 & H)]; [discriminate|]. unfold get in H0. inversion H0. subst st0 st3. clear H0.
  pose proof (read_server_handshake_spec C (r_transcript (rd_ks (fst sr))) q Hq) as Hs.
  destruct (read_server_handshake _ _ _) as [o3 q']. apply bind_panic in H as [H|(ht & st3 & Hl3 & H)].
  { destruct o3 as [[? ?]|?|?| |]; try contradiction; discriminate. }
  apply lift_ok in Hl3 as [-> ->]. destruct ht as [hh tr]. destruct Hs as (_ & _ & Hq' & _).
  apply bind_panic in H as [H|(u3 & st4 & _ & H)]; [unfold on_fst, set_transcript, modify in H; discriminate|].
  apply bind_panic in H as [H|(u4 & st5 & _ & H)]; [now apply call_cb_panic in H|]. now apply IH in H.
Qed.

Lemma parse_alert_np b : np (fst (parse_alert (pb_new b))).
Proof. intros x. pose proof (C01_alert_decode_total b) as H. destruct (fst (parse_alert (pb_new b))); try discriminate. now destruct H. Qed.

(** One record of the flight. *)
Lemma verify_panic c (h : @hs_data V) rec r1 x st' : crypto_ok C -> so_far c -> between (cn_rd c) -> rd_read C (cn_rd c) = (Ok rec, r1) ->
  decrypt_record C (server_verify_cb C p) rec (r1, (St_ServerVerify, h)) = (Panic x, st') -> open_panics C p cfg W x.
Proof.
  intros HC (xx & h0 & junk & rs & ms & Hsec & Hra & Hsh & HW & Hf0 & Hh0 & Hcar & Hcnt & Hkey & Hiv & Htr & Hlen) Hb Hrd Hd.
  set (s := cn_rd c) in *. pose proof (between_read C s rec r1 Hb Hrd) as Hb1.
  destruct (rd_read_any C s _ r1 (proj1 Hb) Hrd) as (_ & _ & _ & [[Hf _]|(hh & f & Hc & Hdec)]); [contradiction|].
  destruct Hc as (Hkt & Hfr & Hl & Hsub & _ & Hsz & y & Hx1 & Hx2).
  unfold pend in Hx2. rewrite (proj2 Hb), (proj2 Hb1) in Hx2. unfold sub in Hx2. cbn [firstn app] in Hx2. rewrite app_nil_r in Hx2. subst y.
  destruct (sr_decode C hh (rd_decoded r1 - length f) f (r_transcript (rd_ks s))) as [[rec0 tr1]|e|y| |] eqn:Ed; try contradiction; [|destruct Hdec; discriminate].
  destruct Hdec as [Hrec Hks]. cbn [fst snd] in *. assert (rec0 = rec) by congruence. subst rec0. clear Hrec.
  apply sr_decode_inv in Ed as [(Hh & -> & ->)|[(Hh & l & d & ->)|[(Hh & -> & ->)|(Hh & y & junk1 & m & hh1 & -> & _ & _ & -> & _)]]];
    try (apply opp_provider; now apply call_cb_panic in Hd).
  assert (Hoff : rd_decoded r1 - length f + length f <= length (rd_buf r1)) by (destruct Hb1 as [Hw _]; unfold rd_wf in Hw; lia).
  pose proof (decrypt_app C (server_verify_cb C p) hh (rd_decoded r1 - length f) f r1 (St_ServerVerify, h) HC) as Happ.
  rewrite Hks in Happ. cbn [r_with_transcript r_state] in Happ. specialize (Happ Hlen Hoff). cbv zeta in Happ.
  fold (rkey c) in Happ. change (r_state (rd_ks s)) with (rkey c) in Happ. rewrite Hkey, Hiv, Hcnt in Happ.
  destruct (rfc_open C _ _ _ hh f) as [inner|] eqn:Eo; [|rewrite Happ in Hd; discriminate].
  destruct Happ as [_ Happ]. rewrite Happ in Hd. clear Happ.
  destruct (rfc_unpad inner) as [[ty ct]|] eqn:Eu.
  2:{ destruct inner as [|b0 inner]; [|discriminate]. assert (x = PUnwrap) by congruence. subst x. apply opp_empty.
      exists xx, h0, junk, rs, ms, hh, f, (stream (rd_rx r1)). rewrite <- Hx1. repeat (split; [assumption|]). exact Eo. }
  destruct (content_type_of (Byte.to_N ty)) as [cty|] eqn:Ect; [|discriminate].
  change (dispatch C (server_verify_cb C p) hh (rd_decoded r1 - length f) (splice f 0 inner) ct cty) with
    (content_of hh (rd_decoded r1 - length f) (splice f 0 inner) ct cty ;;; on_fst rd_increment) in Hd.
  apply bind_panic in Hd as [Hd|(u & [s3 st3] & Hd1 & Hd)].
  - apply opp_provider. destruct cty; cbn [content_of] in Hd; try discriminate.
    + apply bind_panic in Hd as [Hd|(ld & st2 & _ & Hd)]; [exfalso; revert Hd; apply lift_panic, parse_alert_np|now apply call_cb_panic in Hd].
    + apply loop_panic in Hd; [exact Hd|]. apply pwf_new.
  - (* the counter *)
    assert (Hc3 : k_counter (r_state (rd_ks s3)) = protected_count rs).
    { pose proof (keeps_content hh (rd_decoded r1 - length f) (splice f 0 inner) ct cty (decrypted r1 (rd_decoded r1 - length f) f inner, (St_ServerVerify, h))) as Hk.
      rewrite Hd1 in Hk. cbn [fst snd] in Hk. rewrite Hk, decrypted_ks, Hks. exact Hcnt. }
    unfold on_fst, rd_increment, bind, get, lift, put in Hd. cbn [fst snd] in Hd. unfold increment_counter in Hd. rewrite Hc3 in Hd.
    destruct (protected_count rs <? u64_max)%N eqn:El; [discriminate|]. apply N.ltb_ge in El.
    assert (x = PUnwrap) by congruence. subst x. apply opp_counter.
    destruct (protected_count_wire rs) as [Hw|(r & Hr & Hl5)]; [|rewrite (carried_framed _ _ _ _ _ Hcar r Hr) in Hl5; lia].
    rewrite HW, Hx1, app_length. unfold wire_of at 1. cbn [map concat fst snd]. rewrite !app_length. fold (wire_of rs). destruct Hfr as [H5 _]. unfold u64_max in El. lia.
Qed.

(** ** The states of the handshake *)

Lemma wst_sends r c msg c' : sends C L r c msg c' -> k_counter (wst (cn_wh c')) = (k_counter (wst (cn_wh c)) + 1)%N.
Proof. intros (_ & _ & _ & _ & _ & _ & Hk & _). unfold wst in *. rewrite Hk. reflexivity. Qed.

Lemma at_step s c h s' c' h' : crypto_ok C -> at_state s c h -> pstep C p cfg L s c h s' c' h' -> at_state s' c' h'.
Proof.
  intros HC [Hid Hat] Hp. destruct (pstep_idle C p cfg L _ _ _ _ _ _ HC Hid Hp) as (Hid1 & _). split; [exact Hid1|].
  inversion Hp as [cx hx k1 msg cx' Hk Hs|cx hx r1 exts secret dhe k2 Hrd Hsec Hdhe Hk|cx hx rec r1 r2 sx hx' Hrd Hd|cx hx ctx msg cx' Hctx Hs Hraw
    |cx hx sign scheme m sg msg cx' Hsg Hm Hsi Hl Hs|cx hx v msg cx1 tr k3 Hv Hs Htr Hk]; subst.
  - destruct Hat as (Hc & Hks & HW & Hb). pose proof (wst_sends _ _ _ _ Hs) as Hcnt.
    destruct (ie_binder C _ _ _ Hk) as [_ Hst]. destruct Hs as (_ & _ & Hrd & _ & Hsh & _).
    split; [|split; [reflexivity|split; [|split]]].
    + rewrite Hcnt. unfold wst in *. cbn [cn_with_keysched cn_wh wh_with_ks wh_ks]. rewrite Hst. cbn [cn_keysched ks_w]. lia.
    + rewrite Hrd. exact HW.
    + rewrite Hrd. exact Hb.
    + exists k1. split; [now rewrite <- Hks|]. exact Hsh.
  - destruct Hat as (Hc & Hsec1 & HW & Hb & k1 & Hearly & Hshk).
    assert (secret = p_secret p) by congruence. subst secret.
    destruct (ihs_iv C _ _ _ HC Hk) as (_ & Hcw & Liv2 & _).
    destruct (server_hello_record C (cn_rd c) r1 exts Hb Hrd) as (h0 & shello & junk & suite & items & Hstr & Hb1 & Hfr & Hh0 & [Hra _] & Hblk & Hks1 & _).
    split; [exact Hcw|]. split; [|exact Hb1].
    unfold sh_shared_secret in Hdhe. destruct (sh_key_share exts) as [[g share]|] eqn:Eks; [|discriminate].
    pose proof (share_of_block items exts g share Hblk Eks) as Hshare.
    set (hello := r_transcript (rd_ks (cn_rd c))) in *. set (trh := hello ++ shello).
    destruct (C08_key_schedule C psk dhe trh [] HC) as (k1' & Hk1' & _ & _ & _ & Hphase).
    assert (k1' = k1) by congruence. subst k1'. clear Hk1'.
    destruct (Hphase (mk_keysched (cn_shared c) (wh_ks (cn_wh c)) (rd_ks r1))) as (hs & k2' & Hhs & Hk2' & Hw2 & Hr2k & _);
      [exact Hshk|cbn [ks_r]; now rewrite Hks1|].
    assert (k2' = k2) by congruence. subst k2'. clear Hk2' Hphase.
    destruct Hw2 as (client & ckey & civ & D1 & D2 & D3 & D4 & D5 & D6 & D7).
    destruct Hr2k as (server & skey & siv & F1 & F2 & F3 & F4 & F5 & F6 & F7).
    exists (mk_exchange hello shello suite items (named_group_code g) share [] [] [] [] dhe client server ckey civ skey siv), h0, junk, [], [].
    unfold secrets_ok, x_hellos. cbn [x_shello x_hello x_suite x_items x_group x_share x_skey x_siv x_server x_client x_ckey x_civ x_dhe].
    split. { split; [exact Hdhe|]. exists hs. auto 10. }
    split; [exact Hra|]. split; [exact Hshare|]. unfold rkey. cbn [cn_rd rd_with_ks rd_ks rd_rx].
    split. { rewrite <- HW, Hstr. unfold wire_of. cbn [map concat fst snd]. rewrite ?app_nil_r, <- ?app_assoc. reflexivity. }
    split; [exact Hfr|]. split; [exact Hh0|]. split; [constructor|]. split; [exact F7|]. auto.
  - destruct Hat as (Hc & Hso & Hb). destruct (so_far_step c h rec r1 r2 _ HC Hso Hb Hrd Hd) as [Hso1 Hb1].
    pose proof (holds_decrypt C (server_verify_cb C p) (fun x => after_verify (fst x)) (server_verify_after C p) rec (r1, (St_ServerVerify, h)) I) as Ha.
    rewrite Hd in Ha. cbn [fst snd] in Ha. destruct s'; try contradiction; cbn [cn_wh]; [auto|exact Hc|lia].
  - pose proof (wst_sends _ _ _ _ Hs) as Hcnt. destruct (p_client_cert p); lia.
  - pose proof (wst_sends _ _ _ _ Hs) as Hcnt. lia.
  - exact I.
Qed.

Lemma hpe_panic (m : M (conn * @hs_data V) tls_error hs_state) st x st' :
  handle_processing_error C m st = (Panic x, st') ->
  m st = (Panic x, st') \/ exists l d st1, m st = (Err (AbortHandshake l d), st1) /\
    (tx <- on_conn (cn_write_record C (CR_Alert l d false)) ;; on_conn (on_wh (respond tx)) ;;; fail (AbortHandshake l d) : M (conn * @hs_data V) tls_error hs_state) st1 = (Panic x, st').
Proof.
  unfold handle_processing_error, attempt. intros H. apply bind_panic in H as [H|(r & st1 & H1 & H)].
  - left. destruct (m st) as [[a|e|y| |] s1]; inversion H. reflexivity.
  - destruct (m st) as [[a|e|y| |] s1]; inversion H1; subst; [discriminate|]. destruct e; try discriminate. right. eauto 6.
Qed.
Lemma alert_panic c (h : @hs_data V) l d x st : crypto_ok C -> idle C L c -> (k_counter (wst (cn_wh c)) < u64_max)%N ->
  (tx <- on_conn (cn_write_record C (CR_Alert l d false)) ;; on_conn (on_wh (respond tx)) ;;; fail (AbortHandshake l d) : M (conn * @hs_data V) tls_error hs_state) (c, h) = (Panic x, st) -> False.
Proof.
  intros HC Hid Hc H. apply bind_panic in H as [H|(tx & [c1 h1] & H1 & H)].
  - revert H. apply (on_write_panic C L); auto; try exact I. intros y e E. discriminate.
  - apply on_conn_ok in H1 as (c2 & Hw & E). inversion E. subst c2 h1. cbn [fst snd] in *.
    apply bind_panic in H as [H|(u & st2 & _ & H)]; [|discriminate].
    revert H. apply (on_respond_panic C L (CR_Alert l d false) c); auto; [exact I|intros y e E1; discriminate].
Qed.

Lemma at_panic s c h x st' : crypto_ok C -> 128 < L -> at_state s c h -> s <> St_ApplicationData ->
  process C p cfg s (c, h) = (Panic x, st') -> open_panics C p cfg W x.
Proof.
  intros HC HL [Hid Hat] Hs H. assert (Hu : (5 < u64_max)%N) by reflexivity.
  destruct s; cbn [process] in H; [| | | | | |contradiction].
  - (* ClientHello *)
    exfalso. destruct Hat as (Hc & Hks & _).
    apply bind_panic in H as [H|(tx & [c1 h1] & H1 & H)].
    + unfold do_client_hello in H. apply bind_panic in H as [H|(u & [c1 h1] & Hk & H)].
      { unfold on_conn, on_ks in H. cbn [fst snd] in H. pose proof (np_early C (cn_keysched c) (option_map fst (cfg_psk cfg))) as Hn.
        destruct (initialize_early_secret _ _ _); inversion H. now apply (Hn s). }
      apply on_conn_ok in Hk as (ck & Hk & E). inversion E. subst ck h1. cbn [fst snd] in *. apply on_ks_ok in Hk as (k1 & Hk & ->).
      destruct (ie_binder C _ _ _ Hk) as [[bk Hbk] Hst].
      apply bind_panic in H as [H|(tx & st1 & Hw & H)].
      * revert H. apply (on_write_panic C L); auto; [|reflexivity| |exact I].
        { destruct Hid as [Hp Hiv]. split; [exact Hp|]. unfold wst. cbn [cn_with_keysched cn_wh wh_with_ks wh_ks]. rewrite Hst. exact Hiv. }
        intros y e _ _. exists bk. exact Hbk.
      * apply bind_panic in H as [H|(u1 & st2 & _ & H)]; discriminate.
    + unfold do_client_hello in H1. apply bind_ok in H1 as (u & st & Hk & H1). apply on_conn_ok in Hk as (ck & Hk & ->). apply on_ks_ok in Hk as (k1 & Hk & ->).
      apply bind_ok in H1 as (tx0 & st & Hw & H1). apply on_conn_ok in Hw as (cw & Hw & ->).
      apply bind_ok in H1 as (u1 & st & Hm & H1). unfold mod_hs, modify in Hm. inversion Hm. subst st. clear Hm.
      unfold ret in H1. inversion H1. subst tx0 c1 h1. clear H1. cbn [fst snd] in *.
      destruct (ie_binder C _ _ _ Hk) as [[bk Hbk] Hst].
      apply bind_panic in H as [H|(u2 & st2 & _ & H)]; [|discriminate]. revert H.
      eapply (on_respond_panic C L); [exact HC| | | | |exact Hw].
      * destruct Hid as [Hp Hiv]. split; [exact Hp|]. unfold wst. cbn [cn_with_keysched cn_wh wh_with_ks wh_ks]. rewrite Hst. exact Hiv.
      * reflexivity.
      * intros y e _ _. exists bk. exact Hbk.
      * unfold wst in *. cbn [cn_with_keysched cn_wh wh_with_ks wh_ks]. rewrite Hst. cbn [cn_keysched ks_w]. lia.
  - (* ServerHello *)
    exfalso. destruct Hat as (Hc & _ & _ & Hb & _).
    apply bind_panic in H as [H|(rec & st & Hr & H)].
    + unfold on_conn, on_rd in H. cbn [fst snd] in H. destruct (rd_read C (cn_rd c)) as [o r1] eqn:Er.
      inversion H. subst o. destruct (rd_read_any C (cn_rd c) _ r1 (proj1 Hb) Er) as (_ & _ & _ & [[[_ Hf] _]|(hh & f & _ & Hdec)]); [now apply Hf, Hb|].
      destruct (sr_decode _ _ _ _ _); try contradiction; destruct Hdec; discriminate.
    + apply on_conn_ok in Hr as (c1 & Hr & ->). apply on_rd_ok in Hr as (r1 & Hr & ->). cbn [fst snd] in *.
      apply hpe_panic in H as [H|(l & d & [c1 h1] & H1 & H)].
      * unfold process_server_hello in H. destruct rec as [[exts| | | | | |]| | |]; try discriminate.
        apply bind_panic in H as [H|(st & st0 & Hg & H)]; [discriminate|].
        apply bind_panic in H as [H|(u & st1 & Hm & H)]; [discriminate|].
        apply bind_panic in H as [H|(secret & st2 & _ & H)]; [revert H; apply lift_panic; nps|].
        apply bind_panic in H as [H|(dhe & st3 & _ & H)]; [revert H; apply lift_panic; nps|].
        apply bind_panic in H as [H|(u2 & st4 & _ & H)]; [|discriminate].
        unfold on_conn, on_ks in H. pose proof (np_hsecret C (cn_keysched (fst st3)) dhe) as Hn.
        destruct (initialize_handshake_secret _ _ _); inversion H. now apply (Hn s).
      * assert (Hid1 : idle C L c1) by (eapply (psh_err_idle C L) in H1; [exact H1|exact Hid|eauto]).
        revert H. apply alert_panic; auto.
        assert (Hw : wst (cn_wh c1) = wst (cn_wh c)).
        { clear - H1. unfold process_server_hello in H1. destruct rec as [[]| | |]; try (inversion H1; subst; reflexivity).
          unfold bind at 1, get in H1. unfold bind at 1, mod_hs, modify in H1. cbn [fst snd] in H1.
          unfold bind at 1, lift in H1. destruct (ok_or _ (hs_secret h)); try (inversion H1; subst; reflexivity).
          unfold bind at 1 in H1. destruct (ok_or _ _); try (inversion H1; subst; reflexivity).
          unfold bind at 1, on_conn, on_ks in H1. cbn [fst snd] in H1.
          destruct (initialize_handshake_secret _ _ _); inversion H1; subst; reflexivity. }
        rewrite Hw. lia.
  - (* ServerVerify *)
    destruct Hat as (Hc & Hso & Hb).
    apply bind_panic in H as [H|(rec & st & Hr & H)].
    + exfalso. unfold on_conn, on_rd in H. cbn [fst snd] in H. destruct (rd_read C (cn_rd c)) as [o r1] eqn:Er.
      inversion H. subst o. destruct (rd_read_any C (cn_rd c) _ r1 (proj1 Hb) Er) as (_ & _ & _ & [[[_ Hf] _]|(hh & f & _ & Hdec)]); [now apply Hf, Hb|].
      destruct (sr_decode _ _ _ _ _); try contradiction; destruct Hdec; discriminate.
    + apply on_conn_ok in Hr as (c1 & Hr & ->). apply on_rd_ok in Hr as (r1 & Hr & ->). cbn [fst snd] in *.
      apply hpe_panic in H as [H|(l & d & [c1 h1] & H1 & H)].
      * unfold process_server_verify in H. cbn [cn_rd cn_dec cn_wh cn_shared cn_opened] in H.
        destruct (decrypt_record _ _ _ _) as [o [r2 [s2 h2]]] eqn:Ed. destruct o; cbn [omap] in H; inversion H. subst s.
        now apply (verify_panic c h rec r1) in Ed.
      * exfalso. revert H. apply alert_panic; auto.
        -- eapply (psv_idle C p L) in H1; [exact H1|exact Hid].
        -- unfold process_server_verify in H1. cbn [cn_rd cn_dec cn_wh cn_shared cn_opened] in H1.
           destruct (decrypt_record _ _ _ _) as [o [r2 [s2 h2]]]. inversion H1. cbn [cn_wh]. lia.
  - (* ClientCert *)
    cbn in Hat.
    apply bind_panic in H as [H|([nx tx] & [c1 h1] & H1 & H)].
    + unfold do_client_cert in H. apply bind_panic in H as [H|(st & st0 & Hg & H)]; [discriminate|]. unfold get in Hg. inversion Hg. subst st st0. clear Hg.
      apply bind_panic in H as [H|(u & st & Hm & H)]; [discriminate|]. unfold mod_hs, modify in Hm. inversion Hm. subst st. clear Hm.
      apply bind_panic in H as [H|(ctx & st & Hc & H)]; [exfalso; revert H; apply lift_panic; nps|]. apply lift_ok in Hc as [_ ->]. cbn [fst snd] in *.
      destruct (p_client_cert p) as [[der|key]|] eqn:Ecc; (apply bind_panic in H as [H|(tx & st & _ & H)]; [|discriminate]).
      * exfalso. revert H. apply (on_write_panic C L); auto; [exact I|intros y e E; discriminate|]. now exists [der].
      * unfold on_conn in H. cbn [fst snd] in H. unfold cn_write_record in H.
        destruct (bind _ _ c) as [o c1] eqn:Ew in H. inversion H. subst o. clear H.
        apply bind_panic in Ew as [Ew|(c0 & c2 & H0 & Ew)]; [discriminate|]. inversion H0. subst c0 c2. clear H0.
        apply bind_panic in Ew as [Ew|([s0 tr'] & c2 & _ & Ew)].
        -- unfold on_wh, on_wb in Ew. destruct (wb_write_record C _ _ _ _) as [o b] eqn:Eb. inversion Ew. subst o.
           destruct Hid as [(Hl & Hp & Hh) _]. apply wr_raw_cert in Eb; auto; [|lia]. subst x. now apply opp_raw_key with key.
        -- exfalso. apply bind_panic in Ew as [Ew|(u2 & c3 & _ & Ew)]; discriminate.
      * exfalso. revert H. apply (on_write_panic C L); auto; [exact I|intros y e E; discriminate|]. now exists [].
    + exfalso. unfold do_client_cert in H1.
      apply bind_ok in H1 as (st & st0 & Hg & H1). unfold get in Hg. inversion Hg. subst st st0. clear Hg.
      apply bind_ok in H1 as (u & st & Hm & H1). unfold mod_hs, modify in Hm. inversion Hm. subst st. clear Hm.
      apply bind_ok in H1 as (ctx & st & Hc & H1). apply lift_ok in Hc as [_ ->]. cbn [fst snd] in *.
      apply bind_panic in H as [H|(u2 & st2 & _ & H)]; [|discriminate].
      destruct (p_client_cert p) as [e|]; apply bind_ok in H1 as (tx0 & st & Hw & H1); apply on_conn_ok in Hw as (cw & Hw & ->); unfold ret in H1; inversion H1; subst tx0 c1 h1;
        revert H; (eapply (on_respond_panic C L); [exact HC|exact Hid| | | |exact Hw]; [exact I|intros y e0 E; discriminate|cbn [fst snd]; lia]).
  - (* ClientCertVerify *)
    cbn in Hat.
    apply bind_panic in H as [H|([nx tx] & [c1 h1] & H1 & H)].
    + unfold do_client_cert_verify in H. apply bind_panic in H as [H|(st & st0 & Hg & H)]; [discriminate|]. unfold get in Hg. inversion Hg. subst st st0. clear Hg. cbn [fst snd] in *.
      destruct (p_signer p) as [[sign scheme]|e|y| |] eqn:Esig; try discriminate.
      * apply bind_panic in H as [H|(m & st & Hm & H)]; [exfalso; revert H; apply lift_panic; unfold cv_client_message; nps|]. apply lift_ok in Hm as [_ ->].
        destruct (sign m) as [sg|] eqn:Esi.
        2:{ unfold panic in H. assert (x = PUnwrap) by congruence. subst x. apply (opp_signature _ _ _ _ sign scheme m Esig). intros sg Esg. rewrite Esi in Esg. discriminate. }
        destruct (p_sig_cap p <? length sg) eqn:El.
        { apply Nat.ltb_lt in El. unfold panic in H. assert (x = PUnwrap) by congruence. subst x. apply (opp_signature _ _ _ _ sign scheme m Esig). intros sg' Esg. assert (sg' = sg) by congruence. subst sg'. exact El. }
        exfalso. apply bind_panic in H as [H|(tx & st & _ & H)]; [|discriminate].
        revert H. apply (on_write_panic C L); auto; [exact I|intros z e E; discriminate|exact I].
      * exfalso. apply bind_panic in H as [H|(tx & st & _ & H)]; [|discriminate].
        revert H. apply (on_write_panic C L); auto; [exact I|intros z e0 E; discriminate|exact I].
      * unfold panic in H. assert (y = x) by congruence. subst y. apply opp_provider. right. right. right. exact Esig.
    + exfalso. unfold do_client_cert_verify in H1. apply bind_ok in H1 as (st & st0 & Hg & H1). unfold get in Hg. inversion Hg. subst st st0. clear Hg. cbn [fst snd] in *.
      apply bind_panic in H as [H|(u2 & st2 & _ & H)]; [|destruct nx; discriminate].
      destruct (p_signer p) as [[sign scheme]|e|y| |] eqn:Esig; try discriminate.
      * apply bind_ok in H1 as (m & st & Hm & H1). apply lift_ok in Hm as [_ ->]. destruct (sign m) as [sg|]; [|discriminate]. destruct (p_sig_cap p <? length sg); [discriminate|].
        apply bind_ok in H1 as (tx0 & st & Hw & H1). apply on_conn_ok in Hw as (cw & Hw & ->). unfold ret in H1. inversion H1. subst tx0 c1 h1.
        revert H. eapply (on_respond_panic C L); [exact HC|exact Hid| | | |exact Hw]; [exact I|intros z e0 E; discriminate|cbn [fst snd]; lia].
      * apply bind_ok in H1 as (tx0 & st & Hw & H1). apply on_conn_ok in Hw as (cw & Hw & ->). unfold ret in H1. inversion H1. subst tx0 c1 h1.
        revert H. eapply (on_respond_panic C L); [exact HC|exact Hid| | | |exact Hw]; [exact I|intros z e0 E; discriminate|cbn [fst snd]; lia].
  - (* ClientFinished *)
    exfalso. cbn in Hat.
    apply bind_panic in H as [H|(tx & [c1 h1] & H1 & H)].
    + unfold do_client_finished in H. apply bind_panic in H as [H|(st & st0 & Hg & H)]; [discriminate|]. unfold get in Hg. inversion Hg. subst st st0. clear Hg.
      apply bind_panic in H as [H|(v & st & Hv & H)]; [revert H; apply lift_panic, np_omap_err, np_client_finished|]. apply lift_ok in Hv as [_ ->].
      revert H. apply (on_write_panic C L); auto; [exact I|intros z e0 E; discriminate|exact I].
    + unfold do_client_finished in H1. apply bind_ok in H1 as (st & st0 & Hg & H1). unfold get in Hg. inversion Hg. subst st st0. clear Hg.
      apply bind_ok in H1 as (v & st & Hv & H1). apply lift_ok in Hv as [_ ->]. cbn [fst snd] in *.
      apply on_conn_ok in H1 as (cw & Hw & E). inversion E. subst cw h1. clear E. cbn [fst snd] in *.
      apply bind_panic in H as [H|(u2 & st2 & _ & H)].
      * revert H. eapply (on_respond_panic C L); [exact HC|exact Hid| | | |exact Hw]; [exact I|intros z e0 E; discriminate|lia].
      * unfold client_finished_finalize in H. apply bind_panic in H as [H|(st & st0 & Hg & H)]; [discriminate|].
        apply bind_panic in H as [H|(u3 & st1 & Hm & H)]; [discriminate|].
        apply bind_panic in H as [H|(tr & st3 & _ & H)]; [revert H; apply lift_panic; nps|].
        apply bind_panic in H as [H|(u4 & st4 & _ & H)]; [discriminate|].
        apply bind_panic in H as [H|(u5 & st5 & _ & H)]; [|discriminate].
        unfold on_conn, on_ks in H. pose proof (np_master C (cn_keysched (fst st4))) as Hn.
        destruct (initialize_master_secret _ _); inversion H. now apply (Hn s).
Qed.

Lemma run_panic : forall fuel s c h x st', crypto_ok C -> 128 < L -> at_state s c h ->
  open_loop C p cfg fuel s (c, h) = (Panic x, st') -> open_panics C p cfg W x.
Proof.
  induction fuel as [|fuel IH]; intros s c h x st' HC HL Hat H; destruct (TermProofs.state_cases s) as [->|Hs]; try discriminate.
  - destruct s; discriminate.
  - rewrite TermProofs.open_loop_round in H by exact Hs. apply bind_panic in H as [H|(s1 & [c1 h1] & H1 & H)].
    + now apply at_panic in H.
    + apply (process_pstep C p cfg L) in H1; [|exact HC|exact (proj1 Hat)|exact Hs].
      apply IH in H; auto. eapply at_step; eauto.
Qed.
End Open.

Theorem open_panic_cause {V} C (p : provider V) cfg rbuf wbuf rx tx c0 v x c : crypto_ok C ->
  cn_new C rbuf wbuf rx tx = Ok c0 -> cn_open C p cfg v c0 = (Panic x, c) -> open_panics C p cfg (stream rx) x.
Proof.
  intros HC Hnew H. destruct (cn_new_idle C rbuf wbuf rx tx c0 Hnew) as (Hid & _ & _ & _ & _ & Hrd & Hks & HL).
  unfold cn_open in H.
  destruct (match p_has_verifier p, cfg_server_name cfg with true, Some n => p_set_hostname p n v | _, _ => (Ok tt, v) end) as [o0 v'] eqn:Eh.
  unfold bind at 1, lift at 1 in H. destruct o0 as [u|e|y| |]; try discriminate.
  - destruct (open_loop _ _ _ _ _ _) as [o [c' h']] eqn:El. destruct o; inversion H. subst s c'.
    apply (run_panic C p cfg (stream rx) (length wbuf)) in El; auto. split; [exact Hid|].
    split; [|split; [exact Hks|]].
    + apply (f_equal (fun k => k_counter (w_state (ks_w k)))) in Hks. exact Hks.
    + rewrite Hrd. split; [reflexivity|]. split; [|reflexivity]. unfold rd_wf. cbn. lia.
  - inversion H. subst y. apply opp_provider. left. destruct (p_has_verifier p); [|discriminate]. destruct (cfg_server_name cfg) as [n|]; [|discriminate].
    exists n, v. now rewrite Eh.
Qed.
