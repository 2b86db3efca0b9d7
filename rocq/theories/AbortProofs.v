(** * The alerts that [open] sends *)
From Coq Require Import String List NArith Arith Bool Lia ZArith.
From Coq.Strings Require Import Byte.
From Coq Require Import ZifyBool ZifyNat ZifyN.
From Verif Require Import Base ParseBuffer Buffer Codes Extensions Crypto KeySchedule Config Handshake Record WriteBuffer
  Transport RecordReader ReadBuffer Connection Api BaseProofs ParseProofs SpecWire SpecRead WireProofs RecordProofs FrameProofs
  PropParse SpecSend SendProofs HsWrite HsProofs ConnProofs SpecHandshake AcceptProofs LocalProofs SpecOpen.
Import ListNotations.
Local Open Scope list_scope.

Definition na {A} (o : outcome tls_error A) : Prop := match o with Err (AbortHandshake _ _) => False | _ => True end.

Lemma na_obind {A B} (o : outcome tls_error A) (f : A -> outcome tls_error B) : na o -> (forall a, na (f a)) -> na (obind o f).
Proof. intros H1 H2. destruct o; cbn [obind]; try exact I; [apply H2|exact H1]. Qed.
Lemma na_omap_err {E A} (g : E -> tls_error) (o : outcome E A) : (forall e, na (Err (g e) : outcome tls_error A)) -> na (omap_err g o).
Proof. intros H. destruct o; cbn [omap_err]; try exact I. apply H. Qed.
Lemma na_ok {A} (a : A) : na (Ok a : outcome tls_error A). Proof. exact I. Qed.
Definition plain_error (e : tls_error) : Prop := match e with AbortHandshake _ _ => False | _ => True end.
Lemma na_err {A} e : plain_error e -> na (Err e : outcome tls_error A). Proof. destruct e; auto. Qed.
Lemma na_panic {A} p : na (Panic p : outcome tls_error A). Proof. exact I. Qed.
Lemma na_cancelled {A} : na (Cancelled : outcome tls_error A). Proof. exact I. Qed.
Lemma na_slice {A} (l : list A) a b : na (slice_rng l a b : outcome tls_error _).
Proof. unfold slice_rng, na. destruct (_ && _); exact I. Qed.
Lemma na_from {A} (l : list A) a : na (slice_from l a : outcome tls_error _).
Proof. apply na_slice. Qed.
Lemma na_set_rng {A} (l : list A) a b : na (set_rng l a b : outcome tls_error _).
Proof. unfold set_rng, na. destruct (_ <=? _); exact I. Qed.
Lemma na_set_index {A} (l : list A) a b : na (set_index l a b : outcome tls_error _).
Proof. unfold set_index, na. destruct (_ <? _); exact I. Qed.
Lemma na_index {A} (l : list A) a : na (index l a : outcome tls_error _).
Proof. unfold index, na. destruct (nth_error _ _); exact I. Qed.
Lemma na_sub a b : na (usize_sub a b : outcome tls_error _).
Proof. unfold usize_sub, na. destruct (_ <=? _); exact I. Qed.
Lemma na_unwrap {A} (o : option A) : na (unwrap o : outcome tls_error _). Proof. destruct o; exact I. Qed.
Lemma na_ok_or {A} (e : tls_error) (o : option A) : plain_error e -> na (ok_or e o). Proof. destruct o; [intros; exact I|apply na_err]. Qed.
Lemma na_as_slice c : na (cb_as_slice c : outcome tls_error _). Proof. apply na_slice. Qed.
Lemma na_space c : na (cb_space c : outcome tls_error _). Proof. apply na_sub. Qed.
Lemma na_hv cap v bs : na (hv_extend cap v bs). Proof. unfold hv_extend, na. destruct (_ <=? _); exact I. Qed.

Ltac nas := repeat first [apply na_ok|apply na_err; exact I|apply na_panic|apply na_cancelled|apply na_slice|apply na_from|apply na_set_rng|apply na_set_index
  |apply na_index|apply na_sub|apply na_unwrap|apply na_ok_or; exact I|apply na_as_slice|apply na_space|apply na_hv|apply na_omap_err; intros ?; exact I
  |apply na_obind; [|intros ?]
  |match goal with |- na (if ?b then _ else _) => destruct b | |- na (match ?x with _ => _ end) => destruct x end].

Section Terms.
Context (C : crypto).

Lemma na_label s n l x : na (make_label C s n l x). Proof. unfold make_label. nas. Qed.
Lemma na_derive s l x : na (derive_secret C s l x). Proof. apply na_label. Qed.
Lemma na_prk p : na (from_prk C p). Proof. unfold from_prk. nas. Qed.
Lemma na_derived s : na (shared_derived C s). Proof. unfold shared_derived. apply na_obind; [apply na_derive|]. intros; nas. Qed.
Lemma na_traffic s l tr : na (calculate_traffic_secret C s l tr).
Proof. unfold calculate_traffic_secret. repeat (apply na_obind; [first [apply na_derive|apply na_prk|apply na_label]|intros ?]). nas. Qed.
Lemma na_traffics k a b : na (calculate_traffic_secrets C k a b).
Proof. unfold calculate_traffic_secrets. repeat (apply na_obind; [apply na_traffic|intros ?]). nas. Qed.
Lemma na_early k p : na (initialize_early_secret C k p).
Proof. unfold initialize_early_secret. apply na_obind; [apply na_derive|intros ?]. apply na_obind; [apply na_prk|intros ?]. apply na_obind; [apply na_derived|intros ?]. nas. Qed.
Lemma na_hsecret k i : na (initialize_handshake_secret C k i).
Proof. unfold initialize_handshake_secret. apply na_obind; [apply na_traffics|intros ?]. apply na_obind; [apply na_derived|intros ?]. nas. Qed.
Lemma na_master k : na (initialize_master_secret C k).
Proof. unfold initialize_master_secret. apply na_obind; [apply na_traffics|intros ?]. apply na_obind; [apply na_derived|intros ?]. nas. Qed.
Lemma na_client_finished k : na (create_client_finished C k).
Proof. unfold create_client_finished. apply na_obind; [apply na_label|intros ?]. nas. Qed.
Lemma na_binder w tr : na (create_psk_binder C w tr).
Proof. unfold create_psk_binder. apply na_obind; [apply na_label|intros ?]. nas. Qed.
Lemma na_verify r v h : na (verify_server_finished C r v h).
Proof. unfold verify_server_finished. apply na_obind; [apply na_label|intros ?]. nas. Qed.
Lemma na_pad_loop n : forall l i p, na (pad_loop n i l p).
Proof. induction l; intros i p; cbn [pad_loop]; nas. apply IHl. Qed.
Lemma na_nonce k : na (kstate_nonce C k).
Proof. unfold kstate_nonce, ks_get_nonce, pad. apply na_obind; [apply na_pad_loop|intros ?]. nas. Qed.
Lemma na_increment k : na (increment_counter k). Proof. unfold increment_counter. nas. Qed.

(** ** Code with state *)

Definition calm {S A} (m : M S tls_error A) : Prop := forall s, na (fst (m s)).

Lemma a_bind {S A B} (m : M S tls_error A) (f : A -> M S tls_error B) : calm m -> (forall a, calm (f a)) -> calm (bind m f).
Proof.
  intros H1 H2 s. unfold bind. specialize (H1 s). destruct (m s) as [o s1]. cbn [fst] in H1. destruct o; try exact I; [apply H2|].
  exact H1.
Qed.
Lemma a_ret {S A} (a : A) : calm (ret a : M S tls_error A). Proof. intros s. exact I. Qed.
Lemma a_fail {S A} (e : tls_error) : plain_error e -> calm (fail e : M S tls_error A). Proof. intros H s. now apply na_err. Qed.
Lemma a_panic {S A} p : calm (panic p : M S tls_error A). Proof. intros s. exact I. Qed.
Lemma a_lift {S A} (o : outcome tls_error A) : na o -> calm (lift o : M S tls_error A). Proof. intros H s. exact H. Qed.
Lemma a_get {S} : calm (get : M S tls_error S). Proof. intros s. exact I. Qed.
Lemma a_put {S} (x : S) : calm (put x : M S tls_error unit). Proof. intros s. exact I. Qed.
Lemma a_modify {S} f : calm (modify f : M S tls_error unit). Proof. intros s. exact I. Qed.
Lemma a_gets {S A} (f : S -> A) : calm (gets f : M S tls_error A). Proof. intros s. exact I. Qed.
Lemma a_map_err {S E A} (g : E -> tls_error) (m : M S E A) : (forall e, plain_error (g e)) -> calm (map_err g m).
Proof. intros H s. unfold map_err. destruct (m s). apply na_omap_err. intros e. apply na_err, H. Qed.
Lemma a_each {S T} (l : list T) (f : T -> M S tls_error unit) : (forall x, calm (f x)) -> calm (for_each l f).
Proof. intros H. induction l; cbn [for_each]; [apply a_ret|]. apply a_bind; auto. Qed.
Lemma a_attempt {S A} (m : M S tls_error A) : calm (attempt m).
Proof. intros s. unfold attempt. destruct (m s) as [o s1]. destruct o; exact I. Qed.

Lemma a_extend b : calm (cb_extend b).
Proof.
  intros c. unfold cb_extend. pose proof (na_space c) as H. destruct (cb_space c) as [sp| | | |]; try exact I; [|exact H].
  destruct (sp <? length b); [exact I|]. pose proof (@na_set_rng _ (cb_buf c) (cb_off c + cb_len c) b) as H1.
  destruct (set_rng (cb_buf c) (cb_off c + cb_len c) b); try exact I. exact H1.
Qed.
Lemma a_push b : calm (cb_push b).
Proof.
  intros c. unfold cb_push. pose proof (na_space c) as H. destruct (cb_space c) as [sp| | | |]; try exact I; [|exact H].
  destruct (0 <? sp); [|exact I]. pose proof (@na_set_index _ (cb_buf c) (cb_off c + cb_len c) b) as H1.
  destruct (set_index (cb_buf c) (cb_off c + cb_len c) b); try exact I. exact H1.
Qed.
Lemma a_set i b : calm (cb_set i b).
Proof.
  intros c. unfold cb_set. destruct (i <? cb_len c); [|exact I]. pose proof (@na_set_index _ (cb_buf c) (cb_off c + i) b) as H1.
  destruct (set_index (cb_buf c) (cb_off c + i) b); try exact I. exact H1.
Qed.
Lemma a_truncate n : calm (cb_truncate n).
Proof.
  intros c. unfold cb_truncate. pose proof (na_sub (cb_capacity c) (cb_off c)) as H1.
  destruct (usize_sub (cb_capacity c) (cb_off c)); try exact I. exact H1.
Qed.
Lemma a_offset n : calm (cb_offset n).
Proof.
  intros c. unfold cb_offset. pose proof (na_sub (cb_len c + cb_off c) n) as H1.
  destruct (usize_sub (cb_len c + cb_off c) n); try exact I. exact H1.
Qed.
Lemma a_forward : calm cb_forward. Proof. intros c. apply a_offset. Qed.
Lemma a_rewind : calm cb_rewind. Proof. apply a_offset. Qed.

Ltac cs := repeat lazymatch goal with
  | |- calm (ret _) => apply a_ret | |- calm (fail _) => apply a_fail; exact I | |- calm (panic _) => apply a_panic
  | |- calm get => apply a_get | |- calm (put _) => apply a_put | |- calm (modify _) => apply a_modify | |- calm (gets _) => apply a_gets
  | |- calm (map_err _ _) => apply a_map_err; intros ?; exact I | |- calm (cb_extend _) => apply a_extend | |- calm (cb_push _) => apply a_push
  | |- calm (cb_set _ _) => apply a_set | |- calm (cb_truncate _) => apply a_truncate | |- calm (cb_offset _) => apply a_offset
  | |- calm cb_forward => apply a_forward | |- calm cb_rewind => apply a_rewind | |- calm (for_each _ _) => apply a_each; intros ?
  | |- calm (bind _ _) => apply a_bind; [|intros ?] | |- calm (lift _) => apply a_lift; solve [nas]
  | |- calm (if ?b then _ else _) => destruct b | |- calm (match ?x with _ => _ end) => destruct x end.

Lemma a_u8 {A} (m : W A) : calm m -> calm (with_u8_length m). Proof. intros H. unfold with_u8_length. cs. exact H. Qed.
Lemma a_u16 {A} (m : W A) : calm m -> calm (with_u16_length m). Proof. intros H. unfold with_u16_length, cb_push_u16, cb_set_u16. cs. exact H. Qed.
Lemma a_u24 {A} (m : W A) : calm m -> calm (with_u24_length m). Proof. intros H. unfold with_u24_length, cb_push_u24, cb_set_u24. cs. exact H. Qed.
Ltac cw := repeat first [progress cs|apply a_u8|apply a_u16|apply a_u24].

Lemma a_ext_data d : calm (enc_ext_data d).
Proof.
  destruct d; cbn [enc_ext_data]; unfold enc_server_name, enc_named_group, enc_key_share_entry, enc_psk_ch, enc_named_group, enc_err, cb_push_u16, cb_push_u32; cw.
Qed.
Lemma a_message h : calm (enc_client_handshake C h).
Proof.
  unfold enc_client_handshake, enc_certificate, enc_certificate_verify, enc_finished, enc_client_hello, enc_cert_entry, ext_encode, enc_err, cb_push_u16.
  cw. apply a_ext_data.
Qed.
Lemma a_binders w tr n : calm (write_binders C w tr n).
Proof. induction n; cbn [write_binders]; [apply a_ret|]. unfold enc_binder, enc_err. apply a_bind; [apply a_lift, na_binder|intros ?]. cs. exact IHn. Qed.
Lemma na_finalize h w e tr : na (finalize_client_handshake C h w e tr).
Proof.
  destruct h; try apply na_ok. cbn [finalize_client_handshake]. unfold finalize_client_hello.
  destruct (cfg_psk (ch_config h)) as [[k ids]|]; [|apply na_ok]. do 4 (apply na_obind; [nas|intros ?]).
  pose proof (a_binders w (tr ++ a1) (length ids) (cb_wrap a2)) as H.
  destruct (write_binders C w (tr ++ a1) (length ids) (cb_wrap a2)) as [o c]. cbn [fst] in H. destruct o; try exact I; [nas|exact H].
Qed.
Lemma a_finish r w tr : calm (wb_finish_payload C r w tr).
Proof.
  unfold wb_finish_payload. apply a_bind; [cs|intros ?]. apply a_bind; [cs|intros ?]. apply a_bind.
  - apply a_lift. destruct r as [h [|]|]; cbn [cr_finish]; [apply na_ok|apply na_finalize|apply na_ok].
  - intros [p t]. cs.
Qed.
Lemma a_payload r : calm (cr_encode_payload C r).
Proof. destruct r; cbn [cr_encode_payload]; [apply a_message|]. unfold enc_alert, enc_err. cs. Qed.
Lemma a_with_buffer {A} (m : W A) : calm m -> calm (with_buffer m).
Proof.
  intros H w. unfold with_buffer. specialize (H (cb_wrap_with_pos (wb_buf w) (wb_pos w))). destruct (m _) as [o c]. cbn [fst] in H.
  destruct o; try exact I. exact H.
Qed.
Lemma a_encrypt k : calm (encrypt C k).
Proof.
  unfold encrypt. apply a_bind; [apply a_lift, na_nonce|intros ?]. apply a_bind; [cs|intros c]. destruct (_ <? _); [cs|].
  apply a_bind; [cs|intros ?]. destruct (c_seal _ _ _ _ _). cs.
Qed.
Lemma a_close_record k : calm (wb_close_record C k).
Proof.
  unfold wb_close_record. apply a_bind; [cs|intros ?]. apply a_bind; [cs|intros ?]. apply a_bind; [unfold wb_set_hdr; cs|intros ?].
  apply a_bind; [|intros ?; cs]. apply a_with_buffer. destruct (negb _); [cs|]. unfold enc_err. cs. apply a_encrypt.
Qed.
Lemma a_write_record r w tr : calm (wb_write_record C r w tr).
Proof.
  unfold wb_write_record. apply a_bind; [cs|intros b]. destruct (wb_hdr b); [cs|].
  apply a_bind; [|intros ?; apply a_bind; [|intros ?; apply a_bind; [apply a_close_record|intros ?; cs]]].
  - unfold wb_start_record. apply a_bind; [cs|intros ?]. destruct (wb_hdr a); [cs|]. apply a_bind; [unfold wb_set_hdr; cs|intros ?].
    apply a_with_buffer. unfold rh_encode, enc_err, cb_push_u16. cs.
  - apply a_with_buffer. apply a_bind; [cs|intros ?]. apply a_bind; [apply a_payload|intros ?]. apply a_bind; [apply a_finish|intros ?]. cs.
Qed.


(** ** The handshake *)

Section Open.
Context {V : Type} (p : provider V) (cfg : tls_config).
Notation Hm A := (M (conn * @hs_data V) tls_error A).

Lemma a_conn {A} (m : M conn tls_error A) : calm m -> calm (on_conn m : Hm A).
Proof. intros H [c h]. unfold on_conn. cbn [fst snd]. specialize (H c). destruct (m c). exact H. Qed.
Lemma a_wh {A} (m : M whalf tls_error A) : calm m -> calm (on_wh m).
Proof. intros H c. unfold on_wh. specialize (H (cn_wh c)). destruct (m (cn_wh c)). exact H. Qed.
Lemma a_rd {A} (m : M rdst tls_error A) : calm m -> calm (on_rd m).
Proof. intros H c. unfold on_rd. specialize (H (cn_rd c)). destruct (m (cn_rd c)). exact H. Qed.
Lemma a_ks f : (forall k, na (f k)) -> calm (on_ks f).
Proof. intros H c. unfold on_ks. specialize (H (cn_keysched c)). destruct (f _); exact H. Qed.
Lemma a_mod f : calm (mod_hs f : Hm unit). Proof. intros st. exact I. Qed.
Lemma a_on_wb {A} (m : M wbuf tls_error A) : calm m -> calm (on_wb m).
Proof. intros H w. unfold on_wb. specialize (H (wh_wb w)). destruct (m _). exact H. Qed.
Lemma a_on_tx {A} (m : M txst io_kind A) : calm (on_tx m).
Proof. intros w. unfold on_tx. destruct (m _). apply na_omap_err. intros e. exact I. Qed.
Lemma a_wh_increment : calm wh_increment.
Proof. unfold wh_increment. apply a_bind; [cs|intros w]. apply a_bind; [apply a_lift, na_increment|intros k]. cs. Qed.
Lemma a_respond tx : calm (respond tx).
Proof. unfold respond. apply a_bind; [apply a_on_tx|intros ?]. apply a_bind; [apply a_wh_increment|intros ?]. apply a_on_tx. Qed.
Lemma a_write r : calm (on_conn (cn_write_record C r) : Hm bytes).
Proof.
  apply a_conn. unfold cn_write_record. apply a_bind; [cs|intros c]. apply a_bind; [apply a_wh, a_on_wb, a_write_record|intros s].
  apply a_bind; [apply a_rd; intros ?; exact I|intros ?]. cs.
Qed.
Lemma a_server_hello rec : calm (process_server_hello C rec : Hm hs_state).
Proof.
  destruct rec as [[e| | |ce|ctx|v|f]| |l d|hd off data]; cbn [process_server_hello]; try (apply a_fail; exact I).
  apply a_bind; [apply a_get|intros st]. apply a_bind; [apply a_mod|intros ?]. do 2 (apply a_bind; [apply a_lift; nas|intros ?]).
  apply a_bind; [apply a_conn, a_ks; intros; apply na_hsecret|intros ?]. apply a_ret.
Qed.

(** The states that send a handshake message do not abort. *)
Lemma a_process s : na (p_signer p) -> s <> St_ServerHello -> s <> St_ServerVerify -> calm (process C p cfg s).
Proof.
  intros Hs H1 H2. destruct s; cbn [process]; try contradiction.
  - apply a_bind; [|intros tx; apply a_bind; [apply a_conn, a_wh, a_respond|intros ?; apply a_ret]].
    unfold do_client_hello. apply a_bind; [apply a_conn, a_ks; intros; apply na_early|intros ?].
    apply a_bind; [apply a_write|intros ?]. apply a_bind; [apply a_mod|intros ?]. apply a_ret.
  - apply a_bind; [|intros nt; apply a_bind; [apply a_conn, a_wh, a_respond|intros ?; apply a_ret]].
    unfold do_client_cert. apply a_bind; [apply a_get|intros st0]. apply a_bind; [apply a_mod|intros ?].
    apply a_bind; [apply a_lift; nas|intros ctx]. destruct (p_client_cert p); (apply a_bind; [apply a_write|intros ?; apply a_ret]).
  - intros st. unfold bind at 1. destruct (do_client_cert_verify C p st) as [o st1] eqn:E. unfold do_client_cert_verify in E.
    assert (G : match o with Ok (inr e, _) => plain_error e | Ok _ => True | o => na (omap (fun _ => tt) o) end).
    { unfold bind at 1, get at 1 in E. destruct (p_signer p) as [[sign scheme]|e|x| |]; try (injection E as <- _; exact I).
      - unfold bind at 1, lift at 1 in E.
        assert (Hm : na (cv_client_message C (r_transcript (rd_ks (cn_rd (fst st)))))) by (unfold cv_client_message; nas).
        destruct (cv_client_message C _) as [m|e|x| |]; try (apply pair_equal_spec in E as [<- _]; exact Hm).
        destruct (sign m) as [sg|]; [|apply pair_equal_spec in E as [<- _]; exact I].
        destruct (_ <? _); [apply pair_equal_spec in E as [<- _]; exact I|]. unfold bind at 1 in E.
        pose proof (a_write (CR_Handshake (CH_CertVerify (mk_cv scheme sg)) true) st) as Hw.
        destruct (on_conn (cn_write_record C (CR_Handshake (CH_CertVerify (mk_cv scheme sg)) true)) st) as [o1 st2]. cbn [fst] in Hw.
        destruct o1; apply pair_equal_spec in E as [<- _]; try exact I; exact Hw.
      - unfold bind at 1 in E. pose proof (a_write (CR_Alert AL_Warning AD_CloseNotify true) st) as Hw.
        destruct (on_conn (cn_write_record C (CR_Alert AL_Warning AD_CloseNotify true)) st) as [o1 st2]. cbn [fst] in Hw.
        destruct o1; apply pair_equal_spec in E as [<- _]; try exact I; [|exact Hw]. destruct e; auto. }
    destruct o as [[[s'|e] tx]|e|x| |]; try exact G.
    + unfold bind. pose proof (a_conn _ (a_wh _ (a_respond (snd (inl s' : hs_state + tls_error, tx)))) st1) as Hr.
      destruct (on_conn (on_wh (respond _)) st1) as [o2 st2]. cbn [fst] in *. destruct o2; try exact I; exact Hr.
    + unfold bind. pose proof (a_conn _ (a_wh _ (a_respond (snd (inr e : hs_state + tls_error, tx)))) st1) as Hr.
      destruct (on_conn (on_wh (respond _)) st1) as [o2 st2]. cbn [fst] in *. destruct o2; try exact I; [|exact Hr]. cbn. destruct e; auto.
  - apply a_bind; [|intros tx; apply a_bind; [apply a_conn, a_wh, a_respond|intros ?]].
    + unfold do_client_finished. apply a_bind; [apply a_get|intros st0]. apply a_bind; [apply a_lift, na_omap_err; intros; exact I|intros v]. apply a_write.
    + unfold client_finished_finalize. apply a_bind; [apply a_get|intros st0]. apply a_bind; [apply a_mod|intros ?].
      apply a_bind; [apply a_lift; nas|intros tr]. apply a_bind; [apply a_conn, a_rd; intros ?; exact I|intros ?].
      apply a_bind; [apply a_conn, a_ks; intros; apply na_master|intros ?]. apply a_ret.
  - apply a_ret.
Qed.

Lemma loop_run : forall fuel s st o st', open_loop C p cfg fuel s st = (o, st') -> o <> Diverge -> exists n, handshake_run C p cfg n s st o st'.
Proof.
  induction fuel as [|fuel IH]; intros s st o st' H Ho.
  - destruct s; try (injection H as <- _; now destruct Ho). apply pair_equal_spec in H as [<- <-]. exists 0. constructor.
  - assert (G : s <> St_ApplicationData -> (s' <- process C p cfg s ;; open_loop C p cfg fuel s') st = (o, st') -> exists n, handshake_run C p cfg n s st o st').
    { intros Hs E. unfold bind in E. destruct (process C p cfg s st) as [o1 st1] eqn:Ep.
      destruct o1 as [s1|e|x| |]; try (apply pair_equal_spec in E as [<- <-]; exists 1; now constructor).
      - apply IH in E as [n E]; [|exact Ho]. exists (S n). now apply (hr_round C p cfg s st s1 st1).
      - apply pair_equal_spec in E as [<- _]. now destruct Ho. }
    destruct s; cbn [open_loop] in H; try (apply G; [discriminate|exact H]). apply pair_equal_spec in H as [<- <-]. exists 0. constructor.
Qed.

(** An alert in a record of the type change_cipher_spec, in the clear. *)
Definition clear_alert (l : alert_level) (d : alert_desc) : bytes :=
  [x14; x03; x01; x00; x02] ++ uint 1 (alert_level_code l) ++ uint 1 (alert_desc_code d).

Lemma alert_rec_wire l d k : rec_wire C (CR_Alert l d false) k (alert_wire l d) = clear_alert l d.
Proof. now destruct l, d. Qed.

(** What a run that ends with [AbortHandshake] has sent. *)
Lemma run_abort L n s st o st' : crypto_ok C -> na (p_signer p) -> handshake_run C p cfg n s st o st' ->
  idle C L (fst st) -> forall l d, o = Err (AbortHandshake l d) ->
  let sent := log_of (cn_wh (fst st)) in let sent' := log_of (cn_wh (fst st')) in
  match s with
  | St_ClientHello => exists hello, sent' = sent ++ goes_out (SpecHandshake.hello_record hello) \/
      sent' = sent ++ goes_out (SpecHandshake.hello_record hello) ++ goes_out (clear_alert l d)
  | St_ServerHello | St_ServerVerify => sent' = sent \/ sent' = sent ++ goes_out (clear_alert l d)
  | _ => False
  end.
Proof.
  intros HC Hsg H. induction H as [st|s [c h] s1 [c1 h1] n o st2 Hs Hp Hr IH|s [c h] e [c1 h1] Hs Hp|s st x st1 Hs Hp|s st st1 Hs Hp]; intros Hid l d Ho; try discriminate.
  - cbn [fst] in *. apply (process_pstep C p cfg L) in Hp; [|exact HC|exact Hid|exact Hs].
    destruct (pstep_idle C p cfg L _ _ _ _ _ _ HC Hid Hp) as (Hid1 & _). specialize (IH Hid1 l d Ho).
    inversion Hp; subst; cbv zeta in *.
    + destruct H0 as (_ & Hl & _). exists msg. rewrite Hl in IH. rewrite <- app_assoc in IH. exact IH.
    + exact IH.
    + match goal with Hd : decrypt_record _ _ _ _ = _ |- _ =>
        pose proof (holds_decrypt C (server_verify_cb C p) (fun x => after_verify (fst x)) (server_verify_after C p) rec (r1, (St_ServerVerify, h)) I) as Ha;
        rewrite Hd in Ha end. cbn [fst snd] in Ha. destruct s1; try contradiction. exact IH.
    + destruct (p_client_cert p); contradiction.
    + contradiction.
    + contradiction.
  - injection Ho as ->. cbn [fst] in *. cbv zeta.
    destruct s; try (exfalso; match type of Hp with process _ _ _ ?s0 _ = _ => pose proof (a_process s0 Hsg ltac:(discriminate) ltac:(discriminate) (c, h)) as Hn end; rewrite Hp in Hn; exact Hn).
    + cbn [process] in Hp. unfold bind at 1, on_conn at 1, on_rd at 1 in Hp. cbn [fst snd] in Hp.
      destruct (rd_read C (cn_rd c)) as [o1 r1]. destruct o1 as [rec|e|x| |]; try (apply pair_equal_spec in Hp as [_ Hp]; apply pair_equal_spec in Hp as [<- _]; left; reflexivity).
      unfold handle_processing_error in Hp. unfold bind at 1, attempt in Hp.
      match type of Hp with context [process_server_hello C rec ?st] => pose proof (a_server_hello rec st) as Hn; destruct (process_server_hello C rec st) as [o2 st2] end.
      cbn [fst] in Hn. destruct o2 as [a|e|x| |]; try discriminate. exfalso. destruct e; try discriminate. exact Hn.
    + cbn [process] in Hp. unfold bind at 1, on_conn at 1, on_rd at 1 in Hp. cbn [fst snd] in Hp.
      destruct (rd_read C (cn_rd c)) as [o1 r1]. destruct o1 as [rec|e|x| |]; try (apply pair_equal_spec in Hp as [_ Hp]; apply pair_equal_spec in Hp as [<- _]; left; reflexivity).
      unfold handle_processing_error in Hp. unfold bind at 1, attempt in Hp.
      match type of Hp with context [process_server_verify C p rec ?st] =>
        destruct (process_server_verify C p rec st) as [o2 [c2 h2]] eqn:Ev; pose proof (psv_quiet C p rec st) as Hq end.
      rewrite Ev in Hq. cbn [fst snd cn_wh] in Hq. destruct Hq as [Hq _].
      assert (Hid2 : idle C L c2) by (eapply (psv_idle C p L) in Ev; [exact Ev|exact Hid]).
      destruct o2 as [a|e|x| |]; try discriminate.
      destruct e; try discriminate.
      unfold bind at 1 in Hp. pose proof (a_write (CR_Alert l0 d0 false) (c2, h2)) as Hn.
      destruct (on_conn (cn_write_record C (CR_Alert l0 d0 false)) (c2, h2)) as [o3 st3] eqn:Ew. cbn [fst] in Hn.
      destruct o3 as [tx|e|x| |]; try discriminate; [|apply pair_equal_spec in Hp as [Hp _]; injection Hp as ->; contradiction].
      unfold bind at 1 in Hp. pose proof (a_conn _ (a_wh _ (a_respond tx)) st3) as Hn2.
      destruct (on_conn (on_wh (respond tx)) st3) as [o4 st4] eqn:Er. cbn [fst] in Hn2.
      destruct o4 as [u|e|x| |]; try discriminate; [|apply pair_equal_spec in Hp as [Hp _]; injection Hp as ->; contradiction].
      apply pair_equal_spec in Hp as [Hp Hst]. injection Hp as -> ->. right.
      apply on_conn_ok in Ew as (c3 & Ew & ->). cbn [fst snd] in Ew.
      eapply (sends_ok C L (CR_Alert l d false)) in Er; [|exact HC|exact Hid2|exact I|intros ? ? [=]|exact Ew].
      destruct Er as (pl & c4 & (Hpl & Hl & _) & E4). cbn [payload_of] in Hpl. subst pl. rewrite alert_rec_wire in Hl.
      assert (c4 = c1) by congruence. subst c4. rewrite Hl. unfold log_of. now rewrite Hq.
Qed.

Lemma open_abort rbuf wbuf rx tx c0 v c l d : crypto_ok C -> na (p_signer p) -> (forall n v', na (fst (p_set_hostname p n v'))) ->
  cn_new C rbuf wbuf rx tx = Ok c0 -> cn_open C p cfg v c0 = (Err (AbortHandshake l d), c) ->
  exists hello, sent_log c = tx_log tx ++ goes_out (SpecHandshake.hello_record hello) \/
    sent_log c = tx_log tx ++ goes_out (SpecHandshake.hello_record hello) ++ goes_out (clear_alert l d).
Proof.
  intros HC Hsg Hh Hnew Ho. destruct (cn_new_idle C rbuf wbuf rx tx c0 Hnew) as (Hid & _ & _ & Htx & _).
  unfold cn_open in Ho. set (h0 := match p_has_verifier p, _ with true, Some n => _ | _, _ => _ end) in Ho.
  assert (N0 : na (fst h0)).
  { unfold h0. destruct (p_has_verifier p); [|exact I]. destruct (cfg_server_name cfg) as [n|]; [|exact I]. apply Hh. }
  destruct h0 as [o0 v']. cbn [fst] in N0. unfold bind at 1, lift at 1 in Ho.
  destruct o0 as [[]|e|x| |]; try discriminate; [|apply pair_equal_spec in Ho as [Ho _]; injection Ho as ->; contradiction].
  destruct (open_loop C p cfg _ _ _) as [o [c' h']] eqn:E. destruct o as [u|e|x| |]; try discriminate.
  apply pair_equal_spec in Ho as [Ho <-]. injection Ho as ->.
  apply loop_run in E as [n E]; [|discriminate].
  pose proof (run_abort (length wbuf) n _ _ _ _ HC Hsg E Hid l d eq_refl) as G. cbn [fst] in G. cbv zeta in G.
  unfold log_of in G at 2 4. rewrite Htx in G. exact G.
Qed.
End Open.
End Terms.
