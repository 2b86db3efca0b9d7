(** * The [opened] flag: which calls change it, and what they return *)
From Coq Require Import List NArith Arith Bool Lia.
From Coq.Strings Require Import Byte.
From Verif Require Import Base ParseBuffer Buffer Codes Extensions Crypto KeySchedule Config Handshake Record
  WriteBuffer Transport RecordReader ReadBuffer Connection Api BaseProofs.
Import ListNotations.

(** ** [ConnectionClosed] is not an error of the parsers or of the transport *)

Definition onc {A} (o : outcome tls_error A) : Prop := o <> Err ConnectionClosed.
Definition nc {S A} (m : M S tls_error A) : Prop := forall s, onc (fst (m s)).

Lemma nc_ret {S A} (a : A) : nc (ret a : M S tls_error A). Proof. intros s. discriminate. Qed.
Lemma nc_fail {S A} e : e <> ConnectionClosed -> nc (fail e : M S tls_error A).
Proof. intros H s E. inversion E. contradiction. Qed.
Lemma nc_panic {S A} x : nc (panic x : M S tls_error A). Proof. intros s. discriminate. Qed.
Lemma nc_get {S} : nc (get : M S tls_error S). Proof. intros s. discriminate. Qed.
Lemma nc_put {S} (x : S) : nc (put x : M S tls_error unit). Proof. intros s. discriminate. Qed.
Lemma nc_modify {S} (f : S -> S) : nc (modify f : M S tls_error unit). Proof. intros s. discriminate. Qed.
Lemma nc_gets {S A} (f : S -> A) : nc (gets f : M S tls_error A). Proof. intros s. discriminate. Qed.
Lemma nc_lift {S A} (o : outcome tls_error A) : onc o -> nc (lift o : M S tls_error A).
Proof. intros H s. exact H. Qed.
Lemma nc_bind {S A B} (m : M S tls_error A) (f : A -> M S tls_error B) : nc m -> (forall a, nc (f a)) -> nc (bind m f).
Proof.
  intros Hm Hf s. unfold bind. specialize (Hm s). destruct (m s) as [[a|e|x| |] s']; cbn in *; try discriminate.
  - apply Hf.
  - intros E. apply Hm. now inversion E.
Qed.
Lemma nc_map_err {S E A} (g : E -> tls_error) (m : M S E A) : (forall e, g e <> ConnectionClosed) -> nc (map_err g m).
Proof.
  intros H s. unfold map_err. destruct (m s) as [[a|e|x| |] s']; cbn; try discriminate. intros E0. inversion E0. now apply (H e).
Qed.
Lemma onc_bind {A B} (o : outcome tls_error A) (f : A -> outcome tls_error B) : onc o -> (forall a, onc (f a)) -> onc (obind o f).
Proof. intros Ho Hf. destruct o; cbn; try discriminate; [apply Hf|]. intros E. apply Ho. now inversion E. Qed.
Lemma onc_slice {A} (l : list A) a b : onc (slice_rng l a b). Proof. unfold slice_rng. destruct (_ && _); discriminate. Qed.
Lemma onc_slice_from {A} (l : list A) a : onc (slice_from l a). Proof. apply onc_slice. Qed.
Lemma onc_set {A} (l : list A) a b : onc (set_rng l a b). Proof. unfold set_rng. destruct (_ <=? _); discriminate. Qed.
Lemma onc_sub a b : onc (usize_sub a b). Proof. unfold usize_sub. destruct (_ <=? _); discriminate. Qed.
Lemma onc_index {A} (l : list A) a : onc (index l a). Proof. unfold index. destruct (nth_error _ _); discriminate. Qed.
Lemma onc_unwrap {A} (o : option A) : onc (unwrap o). Proof. destruct o; discriminate. Qed.
Lemma onc_ok_or {A} e (o : option A) : e <> ConnectionClosed -> onc (ok_or e o).
Proof. intros H. destruct o; [discriminate|]. intros E. now inversion E. Qed.
Lemma onc_omap_err {E A} (g : E -> tls_error) (o : outcome E A) : (forall e, g e <> ConnectionClosed) -> onc (omap_err g o).
Proof. intros H. destruct o; cbn; try discriminate. intros E0. inversion E0. now apply (H e). Qed.

Ltac nc1 :=
  first
  [ apply nc_ret | apply nc_fail; discriminate | apply nc_panic | apply nc_get | apply nc_put | apply nc_modify | apply nc_gets
  | apply nc_map_err; intros; discriminate
  | match goal with |- nc (lift _) => apply nc_lift | |- nc (bind _ _) => apply nc_bind; [|intros ?] end ].
Ltac onc1 :=
  first
  [ apply onc_slice | apply onc_slice_from | apply onc_set | apply onc_sub | apply onc_index | apply onc_unwrap
  | apply onc_ok_or; discriminate | apply onc_omap_err; intros; discriminate | discriminate
  | match goal with |- onc (obind _ _) => apply onc_bind; [|intros ?] end ].
Ltac ncs := repeat first [nc1 | onc1].

Lemma nc_pq {A} (m : P parse_error A) : nc (pq m). Proof. apply nc_map_err. discriminate. Qed.
Lemma nc_attempt {S A} (m : M S tls_error A) : nc (attempt m).
Proof. intros s. unfold attempt. destruct (m s) as [[] ?]; discriminate. Qed.

Lemma nc_ext_parse g : nc (ext_parse g).
Proof.
  unfold ext_parse. apply nc_bind; [apply nc_attempt|]. intros t. ncs. destruct t as [t|e].
  - destruct (g t) as [pd|]; [|ncs]. destruct (pd a0) as [o d']. ncs.
  - destruct e as [| | | | | | | | | | | | | | | | | | | | | | | | | | |[]| | | | |]; ncs.
Qed.

Lemma onc_ext_loop g fuel : forall cap acc d, onc (ext_vector_loop g fuel cap acc d).
Proof.
  induction fuel as [|fuel IH]; intros cap acc d; cbn [ext_vector_loop]; destruct (pb_is_empty d); try discriminate.
  pose proof (nc_ext_parse g d) as H. destruct (ext_parse g d) as [[x|e|x| |] d']; cbn [fst] in H; try discriminate.
  - destruct (_ <? _); [apply IH|discriminate].
  - destruct e; try discriminate; try apply IH. intros _. now apply H.
Qed.

Lemma nc_ext_vector g cap : nc (ext_parse_vector g cap).
Proof. unfold ext_parse_vector, pq. ncs. apply onc_ext_loop. Qed.

Lemma nc_cert_entry : nc parse_cert_entry.
Proof. unfold parse_cert_entry. ncs. apply nc_ext_vector. Qed.

Lemma onc_cert_entries fuel : forall cap acc d, onc (cert_entries_loop fuel cap acc d).
Proof.
  induction fuel as [|fuel IH]; intros cap acc d; cbn [cert_entries_loop]; destruct (pb_is_empty d); try discriminate.
  pose proof (nc_cert_entry d) as H. destruct (parse_cert_entry d) as [[x|e|x| |] d']; cbn [fst] in H; try discriminate.
  - destruct (_ <? _); [apply IH|discriminate].
  - intros E. apply H. now inversion E.
Qed.

Lemma nc_parse_handshake C : nc (parse_server_handshake C).
Proof.
  unfold parse_server_handshake. ncs. destruct a; ncs.
  - unfold parse_server_hello, pq. ncs. apply nc_ext_vector.
  - unfold parse_new_session_ticket, pq. ncs. apply nc_ext_vector.
  - unfold parse_encrypted_extensions. ncs. apply nc_ext_vector.
  - unfold parse_certificate. ncs. apply onc_cert_entries.
  - unfold parse_certificate_request. ncs. apply nc_ext_vector.
  - unfold parse_certificate_verify. ncs.
  - unfold parse_finished, pq. ncs.
Qed.

Lemma nc_read_handshake C tr : nc (read_server_handshake C tr).
Proof. unfold read_server_handshake. ncs. apply nc_parse_handshake. Qed.

Lemma nc_parse_alert : nc parse_alert.
Proof. unfold parse_alert, pq. ncs. Qed.

Lemma nc_on_rx {A} (m : M (list rx_event) tls_error A) : nc m -> nc (on_rx m).
Proof. intros H s. unfold on_rx. specialize (H (rd_rx s)). now destruct (m (rd_rx s)). Qed.

Lemma nc_rx_some n : nc (rx_read_some n).
Proof. unfold rx_read_some. ncs. destruct (_ =? _); ncs. Qed.

Lemma nc_header_loop fuel : forall acc, nc (header_loop fuel acc).
Proof.
  induction fuel as [|fuel IH]; intros acc; cbn [header_loop]; destruct (_ =? _); ncs; [apply nc_rx_some|apply IH].
Qed.

Lemma onc_hdr_decode h : onc (hdr_decode h).
Proof. unfold hdr_decode. ncs. destruct (content_type_of _); discriminate. Qed.

Lemma onc_hdr_len h : onc (hdr_content_length h).
Proof. unfold hdr_content_length. ncs. Qed.

Lemma nc_advance_loop fuel : forall a r, nc (advance_loop fuel a r).
Proof.
  induction fuel as [|fuel IH]; intros a r; cbn [advance_loop]; (apply nc_bind; [apply nc_get|intros s]); destruct (_ <=? _); ncs.
  - apply nc_on_rx, nc_rx_some.
  - apply IH.
Qed.

Lemma onc_sr_decode C h off data tr : onc (sr_decode C h off data tr).
Proof.
  unfold sr_decode. apply onc_bind; [apply onc_hdr_len|]. intros n. destruct (negb _); [discriminate|].
  apply onc_bind; [unfold hdr_content_type; ncs|]. intros [] ; try discriminate; ncs.
  - apply nc_parse_alert.
  - apply nc_read_handshake.
Qed.

Lemma nc_rd_read C : nc (rd_read C).
Proof.
  unfold rd_read, next_record_header, advance, ensure_contiguous, consume_record. ncs; try apply onc_hdr_len; try apply onc_sr_decode.
  - apply nc_on_rx. ncs; [apply nc_header_loop|apply onc_hdr_decode].
  - destruct (_ <? _); [|ncs]. destruct (_ <? _); ncs.
  - apply nc_advance_loop.
Qed.

(** ** The receiving side *)

Definition flag (st : rhalf) : bool := snd (snd st).

(** Either [ConnectionClosed] is reported and the flag is cleared, or neither. *)
Definition flagged {A} (m : M rhalf tls_error A) : Prop := forall st,
  let '(o, st') := m st in
  o = Err ConnectionClosed /\ flag st' = false \/ onc o /\ flag st' = flag st.

Lemma flagged_pure {A} (m : M rhalf tls_error A) : nc m -> (forall st, flag (snd (m st)) = flag st) -> flagged m.
Proof. intros H1 H2 st. specialize (H1 st). specialize (H2 st). destruct (m st). right. auto. Qed.

Lemma flagged_bind {A B} (m : M rhalf tls_error A) (f : A -> M rhalf tls_error B) :
  flagged m -> (forall a, flagged (f a)) -> flagged (bind m f).
Proof.
  intros Hm Hf st. unfold bind. specialize (Hm st). destruct (m st) as [[a|e|x| |] st1].
  - destruct Hm as [[E _]|[_ E]]; [discriminate|]. specialize (Hf a st1). destruct (f a st1) as [o st2].
    destruct Hf as [H|[H1 H2]]; [now left|]. right. split; [exact H1|congruence].
  - destruct Hm as [[E H]|[H1 H2]]; [left; split; [now inversion E|exact H]|].
    right. split; [|exact H2]. intros E. apply H1. now inversion E.
  - destruct Hm as [[E H]|[H1 H2]]; [discriminate|]. right. split; [discriminate|exact H2].
  - destruct Hm as [[E H]|[H1 H2]]; [discriminate|]. right. split; [discriminate|exact H2].
  - destruct Hm as [[E H]|[H1 H2]]; [discriminate|]. right. split; [discriminate|exact H2].
Qed.

Lemma flagged_lift {A} (o : outcome tls_error A) : onc o -> flagged (lift o).
Proof. intros H. apply flagged_pure; [now apply nc_lift|]. reflexivity. Qed.
Lemma flagged_ret {A} (a : A) : flagged (ret a). Proof. apply flagged_pure; [ncs|reflexivity]. Qed.
Lemma flagged_get : flagged get. Proof. apply flagged_pure; [ncs|reflexivity]. Qed.
Lemma flagged_fail {A} e : e <> ConnectionClosed -> flagged (fail e : M rhalf tls_error A).
Proof. intros H. apply flagged_pure; [now apply nc_fail|reflexivity]. Qed.

Lemma flagged_fst {A} (m : M rdst tls_error A) : nc m -> flagged (on_fst m).
Proof.
  intros H. apply flagged_pure.
  - intros st. unfold on_fst. specialize (H (fst st)). now destruct (m (fst st)).
  - intros st. unfold on_fst. now destruct (m (fst st)).
Qed.

Lemma flagged_cb n rec : flagged (call_cb (read_handler n) rec).
Proof.
  intros [r [d op]]. unfold call_cb. cbn [fst snd].
  destruct rec as [h| |l e|hd off data]; cbn [read_handler].
  - destruct h; right; split; try discriminate; reflexivity.
  - right. split; [discriminate|reflexivity].
  - destruct e; (left; split; reflexivity) || (right; split; [discriminate|reflexivity]).
  - unfold bind, lift. pose proof (onc_slice (cb_buf data) (cb_off data) (cb_off data + cb_len data)) as H.
    change (onc (cb_as_slice data)) in H.
    destruct (cb_as_slice data) as [s|e|x| |]; cbn; try (right; split; [discriminate|reflexivity]).
    + destruct (_ && _); right; split; try discriminate; reflexivity.
    + right. split; [|reflexivity]. intros E. apply H. now inversion E.
Qed.

Lemma onc_as_slice c : onc (cb_as_slice c). Proof. unfold cb_as_slice. apply onc_slice. Qed.

Lemma flagged_hs_loop C n fuel : forall p, flagged (handshake_loop C (read_handler n) fuel p).
Proof.
  induction fuel as [|fuel IH]; intros p; cbn [handshake_loop]; (apply flagged_bind; [apply flagged_lift, onc_sub|intros r]);
    destruct (r =? 0); try apply flagged_ret; [apply flagged_lift; discriminate|].
  apply flagged_bind; [apply flagged_get|]. intros st.
  pose proof (nc_read_handshake C (r_transcript (rd_ks (fst st))) p) as H. destruct (read_server_handshake _ _ _) as [o p'].
  cbn [fst] in H. apply flagged_bind; [now apply flagged_lift|]. intros ht.
  apply flagged_bind; [apply flagged_fst; unfold set_transcript; ncs|]. intros [].
  apply flagged_bind; [apply flagged_cb|]. intros []. apply IH.
Qed.

Lemma onc_pad_loop n l : forall i out, onc (pad_loop n i l out).
Proof.
  induction l as [|b l IH]; intros i out; cbn [pad_loop]; ncs.
  all: try (unfold set_index; destruct (_ <? _); discriminate). all: apply IH.
Qed.

Lemma onc_nonce C k : onc (kstate_nonce C k).
Proof. unfold kstate_nonce, ks_get_nonce, pad. ncs. apply onc_pad_loop. Qed.

Lemma onc_increment k : onc (increment_counter k).
Proof. unfold increment_counter. destruct (_ <? _)%N; discriminate. Qed.

Lemma nc_truncate n : nc (cb_truncate n : W unit).
Proof.
  intros c. unfold cb_truncate. pose proof (onc_sub (cb_capacity c) (cb_off c)) as H.
  destruct (usize_sub _ _); cbn; try discriminate. intros E. apply H. now inversion E.
Qed.

Lemma nc_decrypt_in_place C key nonce ad : nc (decrypt_in_place C key nonce ad).
Proof.
  unfold decrypt_in_place. ncs. destruct (_ <? _); [ncs|].
  destruct (c_open _ _ _ _ _ _); ncs. apply nc_truncate.
Qed.

Lemma nc_strip : nc strip_content_type.
Proof.
  unfold strip_content_type. ncs; try apply onc_as_slice; try apply nc_truncate.
  destruct (rfind_nonzero _); [apply nc_truncate|ncs].
Qed.

Lemma flagged_decrypt C n rec : flagged (decrypt_record C (read_handler n) rec).
Proof.
  unfold decrypt_record. destruct rec as [h| |l e|hd off data]; try apply flagged_cb.
  apply flagged_bind; [apply flagged_get|]. intros st. apply flagged_bind; [apply flagged_lift, onc_nonce|]. intros nonce.
  pose proof (nc_decrypt_in_place C (k_key (r_state (rd_ks (fst st)))) nonce hd data) as H1.
  destruct (decrypt_in_place _ _ _ _ _) as [o data1]. cbn [fst] in H1.
  apply flagged_bind; [now apply flagged_lift|]. intros [].
  apply flagged_bind; [apply flagged_fst; ncs|]. intros [].
  pose proof (nc_strip data1) as H2. destruct (strip_content_type data1) as [o2 data2]. cbn [fst] in H2.
  apply flagged_bind; [now apply flagged_lift|]. intros t.
  apply flagged_bind; [apply flagged_lift, onc_as_slice|]. intros inner.
  apply flagged_bind.
  - destruct t; try (apply flagged_fail; discriminate).
    + apply flagged_bind; [apply flagged_lift, nc_parse_alert|]. intros ld. apply flagged_cb.
    + apply flagged_hs_loop.
    + apply flagged_cb.
  - intros []. apply flagged_fst. unfold rd_increment. ncs. apply onc_increment.
Qed.

Lemma flagged_read_app C : flagged (read_application_data C).
Proof.
  unfold read_application_data. apply flagged_bind; [apply flagged_fst, nc_rd_read|]. intros rec.
  apply flagged_bind; [apply flagged_get|]. intros st. apply flagged_decrypt.
Qed.

Lemma onc_dec_empty d : onc (dec_is_empty d).
Proof. unfold dec_is_empty, dec_remaining. ncs. Qed.

Lemma flagged_fill C fuel : flagged (fill_loop C fuel).
Proof.
  induction fuel as [|fuel IH]; cbn [fill_loop]; (apply flagged_bind; [apply flagged_get|]; intros st);
    (apply flagged_bind; [apply flagged_lift, onc_dec_empty|]; intros e);
    (destruct (negb e); [apply flagged_ret|]).
  - apply flagged_lift. discriminate.
  - apply flagged_bind; [apply flagged_read_app|]. intros []. exact IH.
Qed.

Lemma onc_create d b : onc (create_read_buffer d b).
Proof. unfold create_read_buffer. ncs. Qed.

Lemma flagged_buffered C : flagged (rh_read_buffered C).
Proof.
  unfold rh_read_buffered. apply flagged_bind; [apply flagged_get|]. intros [r [d op]].
  destruct op; [|apply flagged_fail; discriminate].
  apply flagged_bind; [apply flagged_fill|]. intros [].
  apply flagged_bind; [apply flagged_get|]. intros st'. apply flagged_lift, onc_create.
Qed.

Lemma flagged_drop r : flagged (rh_drop r).
Proof. unfold rh_drop, rh_set_dec. apply flagged_bind; [apply flagged_get|]. intros st. apply flagged_pure; [ncs|reflexivity]. Qed.

Lemma onc_rb_len r : onc (rb_len r). Proof. unfold rb_len. ncs. Qed.
Lemma onc_rb_pop n r : onc (rb_pop n r).
Proof. unfold rb_pop. apply onc_bind; [apply onc_rb_len|]. intros. ncs. Qed.
Lemma onc_rb_peek n r : onc (rb_peek n r).
Proof. unfold rb_peek. apply onc_bind; [apply onc_rb_len|]. intros. ncs. Qed.
Lemma onc_rb_pop_into b r : onc (rb_pop_into b r).
Proof. unfold rb_pop_into. apply onc_bind; [apply onc_rb_pop|]. intros. ncs. Qed.
Lemma onc_rb_step o r : onc (rb_step o r).
Proof.
  destruct o; cbn [rb_step]; try apply onc_rb_peek; try apply onc_rb_pop.
  - unfold rb_peek_all. apply onc_bind; [apply onc_rb_len|intros; apply onc_rb_peek].
  - unfold rb_pop_all. apply onc_bind; [apply onc_rb_len|intros; apply onc_rb_pop].
  - apply onc_bind; [apply onc_rb_pop_into|]. intros [[b m] r']. discriminate.
Qed.
Lemma onc_rb_run ops : forall r, onc (rb_run ops r).
Proof.
  induction ops as [|o ops IH]; intros r; cbn [rb_run]; [discriminate|].
  apply onc_bind; [apply onc_rb_step|]. intros p. apply onc_bind; [apply IH|]. discriminate.
Qed.

Lemma flagged_read C buf : flagged (rh_read C buf).
Proof.
  unfold rh_read. destruct (_ =? _); [apply flagged_ret|].
  apply flagged_bind; [apply flagged_buffered|]. intros r.
  apply flagged_bind; [apply flagged_lift, onc_rb_pop_into|]. intros p.
  apply flagged_bind; [apply flagged_drop|]. intros []. apply flagged_ret.
Qed.

Lemma flagged_fill_buf C : flagged (rh_fill_buf C).
Proof.
  unfold rh_fill_buf. apply flagged_bind; [apply flagged_buffered|]. intros r.
  apply flagged_bind; [apply flagged_lift; apply onc_bind; [apply onc_rb_len|intros; apply onc_rb_peek]|]. intros p.
  apply flagged_bind; [apply flagged_drop|]. intros []. apply flagged_ret.
Qed.

Lemma flagged_consume n : flagged (rh_consume n).
Proof.
  unfold rh_consume. apply flagged_bind; [apply flagged_get|]. intros st.
  apply flagged_bind; [apply flagged_lift, onc_create|]. intros r.
  apply flagged_bind; [apply flagged_lift, onc_rb_pop|]. intros p. apply flagged_drop.
Qed.

Lemma flagged_with_buffer C ops fin : flagged (rh_with_buffer C ops fin).
Proof.
  unfold rh_with_buffer. apply flagged_bind; [apply flagged_buffered|]. intros r.
  apply flagged_bind; [apply flagged_lift, onc_rb_run|]. intros p.
  apply flagged_bind; [destruct fin|intros []; apply flagged_ret].
  - apply flagged_drop.
  - apply flagged_bind; [apply flagged_get|]. intros st. unfold rh_set_dec. apply flagged_pure; [ncs|reflexivity].
Qed.

(** ** The sending side never reports [ConnectionClosed] *)

Lemma nc_with_buffer {A} (op : W A) : nc op -> nc (with_buffer op).
Proof.
  intros H w. unfold with_buffer. specialize (H (cb_wrap_with_pos (wb_buf w) (wb_pos w))).
  destruct (op _) as [[a|e|x| |] c]; cbn in *; try discriminate. intros E. apply H. now inversion E.
Qed.

Lemma nc_enc_err {S A} (m : M S tls_error A) : nc (enc_err m).
Proof. apply nc_map_err. discriminate. Qed.

Lemma onc_set_index {A} (l : list A) i v : onc (set_index l i v).
Proof. unfold set_index. destruct (_ <? _); discriminate. Qed.

Lemma nc_extend b : nc (cb_extend b : W unit).
Proof.
  intros c. unfold cb_extend, cb_space, usize_sub, set_rng. destruct (_ <=? _); [|discriminate].
  destruct (_ <? _); [discriminate|]. destruct (_ <=? _); discriminate.
Qed.
Lemma nc_offset n : nc (cb_offset n : W unit).
Proof. intros c. unfold cb_offset, usize_sub. destruct (_ <=? _); discriminate. Qed.
Lemma nc_forward : nc (cb_forward : W unit).
Proof. intros c. apply nc_offset. Qed.

Lemma nc_start h : nc (wb_start_record h).
Proof.
  unfold wb_start_record. ncs. destruct (wb_hdr a); [ncs|]. unfold wb_set_hdr. ncs. apply nc_with_buffer.
  apply nc_bind; [unfold rh_encode; ncs|]; intros. ncs; apply nc_extend || apply nc_offset.
Qed.

Lemma nc_close C k : nc (wb_close_record C k).
Proof.
  unfold wb_close_record. ncs; try apply onc_set_index.
  apply nc_with_buffer. destruct (negb _); ncs; try apply nc_offset.
    unfold encrypt. ncs; [apply onc_nonce|]. destruct (_ <? _); ncs. destruct (c_seal _ _ _ _ _). ncs.
Qed.

Lemma nc_write_close_notify C op w tr : nc (wb_write_record C (cr_close_notify op) w tr).
Proof.
  unfold wb_write_record. ncs. destruct (wb_hdr a); [ncs|]. ncs; [apply nc_start| |apply nc_close].
  apply nc_with_buffer. ncs; try apply nc_forward; try apply nc_offset.
  - unfold cr_encode_payload, cr_close_notify, enc_alert. ncs.
  - unfold wb_finish_payload. ncs. destruct a5. ncs.
Qed.

Lemma nc_on_wb {A} (m : M wbuf tls_error A) : nc m -> nc (on_wb m).
Proof. intros H w. unfold on_wb. specialize (H (wh_wb w)). now destruct (m (wh_wb w)). Qed.
Lemma nc_on_tx {A} (m : M txst io_kind A) : nc (on_tx m).
Proof. intros w. unfold on_tx. destruct (m (wh_tx w)) as [[] t]; discriminate. Qed.
Lemma nc_on_wh {A} (m : M whalf tls_error A) : nc m -> nc (on_wh m).
Proof. intros H c. unfold on_wh. specialize (H (cn_wh c)). now destruct (m (cn_wh c)). Qed.
Lemma nc_on_rd {A} (m : M rdst tls_error A) : nc m -> nc (on_rd m).
Proof. intros H c. unfold on_rd. specialize (H (cn_rd c)). now destruct (m (cn_rd c)). Qed.

Lemma nc_increment : nc wh_increment.
Proof. unfold wh_increment. ncs. apply onc_increment. Qed.

Lemma nc_flush C : nc (wh_flush C).
Proof.
  unfold wh_flush. ncs. destruct (wb_is_empty _); [ncs|]. ncs; try apply nc_on_tx; try apply nc_increment.
  - apply nc_on_wb, nc_close.
  - destruct (policy_flush_transport _); [apply nc_on_tx|ncs].
Qed.

Lemma nc_write C op b : nc (wh_write C op b).
Proof.
  unfold wh_write. destruct op; [|ncs]. ncs.
  - destruct (wb_contains _ _); ncs; [apply nc_flush|apply nc_on_wb, nc_start].
  - unfold wb_append. apply onc_bind; [unfold wb_space, wb_max_block; ncs|]. intros sp. cbv zeta. destruct (0 <? _); ncs.
  - unfold wb_is_full, wb_max_block. ncs.
  - destruct a4; [apply nc_flush|ncs].
Qed.

Lemma nc_cn_close C : nc (cn_close C).
Proof.
  unfold cn_close. ncs; try (apply nc_on_wh; apply nc_on_tx); try (apply nc_on_wh, nc_increment).
  - apply nc_on_wh, nc_flush.
  - unfold cn_write_record. ncs. apply nc_on_wh, nc_on_wb, nc_write_close_notify.
Qed.

(** ** One call *)

(** Actions that leave the flag alone. *)
Definition keeps {A} (m : M conn tls_error A) : Prop := forall c, cn_opened (snd (m c)) = cn_opened c.

Lemma keeps_bind {A B} (m : M conn tls_error A) (f : A -> M conn tls_error B) : keeps m -> (forall a, keeps (f a)) -> keeps (bind m f).
Proof.
  intros Hm Hf c. unfold bind. specialize (Hm c). destruct (m c) as [[a|e|x| |] c']; cbn in *; auto.
  now rewrite Hf.
Qed.
Lemma keeps_ret {A} (a : A) : keeps (ret a). Proof. intros c. reflexivity. Qed.
Lemma keeps_get : keeps get. Proof. intros c. reflexivity. Qed.
Lemma keeps_wh {A} (m : M whalf tls_error A) : keeps (on_wh m).
Proof. intros c. unfold on_wh. now destruct (m (cn_wh c)). Qed.
Lemma keeps_rd {A} (m : M rdst tls_error A) : keeps (on_rd m).
Proof. intros c. unfold on_rd. now destruct (m (cn_rd c)). Qed.
Lemma keeps_ks f : keeps (on_ks f).
Proof. intros c. unfold on_ks. destruct (f (cn_keysched c)); reflexivity. Qed.
Lemma keeps_write_record C r : keeps (cn_write_record C r).
Proof.
  unfold cn_write_record. apply keeps_bind; [apply keeps_get|]. intros. apply keeps_bind; [apply keeps_wh|]. intros.
  apply keeps_bind; [apply keeps_rd|]. intros. apply keeps_ret.
Qed.

(** A call reports [ConnectionClosed] and clears the flag, or does neither. *)
Lemma step_flag C o c r c' : step C o c = (r, c') ->
  r = Err ConnectionClosed /\ cn_opened c' = false \/ r <> Err ConnectionClosed /\ cn_opened c' = cn_opened c.
Proof.
  assert (Hk : forall (m : M conn tls_error value), nc m -> keeps m -> m c = (r, c') ->
    r = Err ConnectionClosed /\ cn_opened c' = false \/ r <> Err ConnectionClosed /\ cn_opened c' = cn_opened c).
  { intros m H1 H2 E. specialize (H1 c). specialize (H2 c). rewrite E in *. right. auto. }
  assert (Hr : forall A (m : M rhalf tls_error A) (f : A -> value), flagged m -> (x <- on_rh m ;; ret (f x)) c = (r, c') ->
    r = Err ConnectionClosed /\ cn_opened c' = false \/ r <> Err ConnectionClosed /\ cn_opened c' = cn_opened c).
  { intros A m f Hf E. unfold bind, on_rh, ret in E. specialize (Hf (cn_rd c, (cn_dec c, cn_opened c))).
    destruct (m _) as [o1 [r1 [d1 op1]]]. unfold flag in Hf. cbn [fst snd] in Hf.
    destruct o1; inversion E; subst r c'; cbn [cn_opened];
      (destruct Hf as [[E1 E2]|[E1 E2]]; [try discriminate|right; split; [try discriminate|exact E2]]).
    - inversion E1. now left.
    - intros E3. apply E1. now inversion E3. }
  destruct o; cbn [step].
  - apply Hk.
    + apply nc_bind; [|intros; ncs]. unfold cn_write. ncs. apply nc_on_wh, nc_write.
    + apply keeps_bind; [|intros; apply keeps_ret]. unfold cn_write. apply keeps_bind; [apply keeps_get|]. intros. apply keeps_wh.
  - apply Hk.
    + apply nc_bind; [|intros; ncs]. apply nc_on_wh, nc_flush.
    + apply keeps_bind; [apply keeps_wh|intros; apply keeps_ret].
  - apply Hk.
    + apply nc_bind; [|intros; ncs]. apply nc_on_wh. ncs.
    + apply keeps_bind; [apply keeps_wh|intros; apply keeps_ret].
  - apply Hr, flagged_read.
  - apply Hr, flagged_fill_buf.
  - apply (Hr unit _ (fun _ => VUnit)), flagged_consume.
  - apply Hr, flagged_with_buffer.
  - apply Hk.
    + apply nc_bind; [apply nc_cn_close|intros; ncs].
    + apply keeps_bind; [|intros; apply keeps_ret]. unfold cn_close. repeat (apply keeps_bind; [|intros]);
      try apply keeps_wh; try apply keeps_get; apply keeps_write_record.
Qed.

(** ** [open] *)

Section Open.
Context {V : Type} (C : crypto) (p : provider V) (cfg : tls_config).
Notation H A := (M (conn * @hs_data V) tls_error A).

Definition keeps_h {A} (m : H A) : Prop := forall st, cn_opened (fst (snd (m st))) = cn_opened (fst st).

Lemma kh_bind {A B} (m : H A) (f : A -> H B) : keeps_h m -> (forall a, keeps_h (f a)) -> keeps_h (bind m f).
Proof.
  intros Hm Hf c. unfold bind. specialize (Hm c). destruct (m c) as [[a|e|x| |] c']; cbn in *; auto. now rewrite Hf.
Qed.
Lemma kh_same {A} (m : H A) : (forall st, fst (snd (m st)) = fst st) -> keeps_h m.
Proof. intros E st. now rewrite E. Qed.
Lemma kh_conn {A} (m : M conn tls_error A) : keeps m -> keeps_h (on_conn m).
Proof. intros Hm st. unfold on_conn. specialize (Hm (fst st)). now destruct (m (fst st)). Qed.
Lemma kh_attempt {A} (m : H A) : keeps_h m -> keeps_h (attempt m).
Proof. intros Hm st. unfold attempt. specialize (Hm st). now destruct (m st) as [[] st']. Qed.

Ltac kh := repeat first
  [ match goal with |- keeps_h (bind _ _) => apply kh_bind; [|intros ?] end
  | match goal with |- keeps_h (on_conn _) => apply kh_conn end
  | apply keeps_wh | apply keeps_rd | apply keeps_ks | apply keeps_write_record
  | (apply kh_same; reflexivity) ].

Lemma kh_hpe m : keeps_h m -> keeps_h (handle_processing_error C m).
Proof.
  intros Hm. unfold handle_processing_error. apply kh_bind; [now apply kh_attempt|]. intros [s|e]; kh.
  destruct e; kh.
Qed.

Lemma kh_process s : keeps_h (process C p cfg s).
Proof.
  destruct s; cbn [process]; kh.
  - unfold do_client_hello. kh.
  - apply kh_hpe. unfold process_server_hello. destruct a as [[]| | |]; kh.
  - apply kh_hpe. intros [c h]. unfold process_server_verify.
    destruct (decrypt_record _ _ _ _) as [o [r [s h']]]. reflexivity.
  - unfold do_client_cert. kh. destruct (p_client_cert p); kh.
  - unfold do_client_cert_verify. kh. destruct (p_signer p) as [[sign scheme]| | | |]; kh. destruct (sign _); kh. destruct (_ <? _); kh.
  - destruct (fst a); kh.
  - unfold do_client_finished. kh.
  - unfold client_finished_finalize. kh.
Qed.

Lemma kh_loop fuel : forall s, keeps_h (open_loop C p cfg fuel s).
Proof.
  induction fuel as [|fuel IH]; intros []; cbn [open_loop]; kh; try apply kh_process; apply IH.
Qed.

Lemma open_flag v c o c' : cn_open C p cfg v c = (o, c') ->
  o = Ok tt /\ cn_opened c' = true \/ o <> Ok tt /\ cn_opened c' = cn_opened c.
Proof.
  unfold cn_open. destruct (match p_has_verifier p with true => _ | false => _ end) as [o0 v'].
  destruct ((lift o0 ;;; _) _) as [o1 [c1 h1]] eqn:E.
  assert (Hc : cn_opened c1 = cn_opened c).
  { assert (K : keeps_h (lift o0 ;;; open_loop C p cfg (8 + rx_size (rd_rx (cn_rd c))) St_ClientHello)).
    { kh. apply kh_loop. }
    specialize (K (c, hs_new v')). unfold bind in K. unfold bind in E. rewrite E in K. exact K. }
  destruct o1 as [[]| | | |]; intros H0; inversion H0; subst; [left; split; reflexivity| | | |]; right; split; auto; discriminate.
Qed.
End Open.
