(** * No loop of the handshake or of the receiving calls runs forever *)
From Coq Require Import String List NArith Arith Bool Lia ZArith.
From Coq.Strings Require Import Byte.
From Coq Require Import ZifyBool ZifyNat ZifyN.
From Verif Require Import Base ParseBuffer Buffer Codes Extensions Crypto KeySchedule Config Handshake Record WriteBuffer
  Transport RecordReader ReadBuffer Connection Api BaseProofs ParseProofs SpecWire SpecRead WireProofs RecordProofs FrameProofs
  PropParse HsProofs SpecHandshake AcceptProofs LocalProofs SpecOpen.
Import ListNotations.
Local Open Scope list_scope.

(** ** Code without loops *)

Definition nd {E A} (o : outcome E A) : Prop := o <> Diverge.

Lemma nd_obind {E A B} (o : outcome E A) (f : A -> outcome E B) : nd o -> (forall a, nd (f a)) -> nd (obind o f).
Proof. unfold nd. intros H1 H2. destruct o; cbn [obind]; auto; discriminate. Qed.
Lemma nd_omap_err {E E' A} (g : E -> E') (o : outcome E A) : nd o -> nd (omap_err g o).
Proof. unfold nd. destruct o; cbn [omap_err]; intros; try discriminate. congruence. Qed.
Lemma nd_ok {E A} (a : A) : nd (Ok a : outcome E A). Proof. discriminate. Qed.
Lemma nd_err {E A} (e : E) : nd (Err e : outcome E A). Proof. discriminate. Qed.
Lemma nd_panic {E A} p : nd (Panic p : outcome E A). Proof. discriminate. Qed.
Lemma nd_cancelled {E A} : nd (Cancelled : outcome E A). Proof. discriminate. Qed.
Lemma nd_slice {E A} (l : list A) a b : nd (slice_rng l a b : outcome E _).
Proof. unfold slice_rng, nd. destruct (_ && _); discriminate. Qed.
Lemma nd_from {E A} (l : list A) a : nd (slice_from l a : outcome E _).
Proof. apply nd_slice. Qed.
Lemma nd_set_rng {E A} (l : list A) a b : nd (set_rng l a b : outcome E _).
Proof. unfold set_rng, nd. destruct (_ <=? _); discriminate. Qed.
Lemma nd_set_index {E A} (l : list A) a b : nd (set_index l a b : outcome E _).
Proof. unfold set_index, nd. destruct (_ <? _); discriminate. Qed.
Lemma nd_index {E A} (l : list A) a : nd (index l a : outcome E _).
Proof. unfold index, nd. destruct (nth_error _ _); discriminate. Qed.
Lemma nd_sub {E} a b : nd (usize_sub a b : outcome E _).
Proof. unfold usize_sub, nd. destruct (_ <=? _); discriminate. Qed.
Lemma nd_unwrap {E A} (o : option A) : nd (unwrap o : outcome E _). Proof. destruct o; discriminate. Qed.
Lemma nd_ok_or {E A} (e : E) (o : option A) : nd (ok_or e o). Proof. destruct o; discriminate. Qed.
Lemma nd_as_slice {E} c : nd (cb_as_slice c : outcome E _). Proof. apply nd_slice. Qed.
Lemma nd_space {E} c : nd (cb_space c : outcome E _). Proof. apply nd_sub. Qed.
Lemma nd_hv cap v bs : nd (hv_extend cap v bs). Proof. unfold hv_extend, nd. destruct (_ <=? _); discriminate. Qed.

Ltac nds := repeat first [apply nd_ok|apply nd_err|apply nd_panic|apply nd_cancelled|apply nd_slice|apply nd_from|apply nd_set_rng|apply nd_set_index
  |apply nd_index|apply nd_sub|apply nd_unwrap|apply nd_ok_or|apply nd_as_slice|apply nd_space|apply nd_hv|apply nd_omap_err
  |apply nd_obind; [|intros ?]
  |match goal with |- nd (if ?b then _ else _) => destruct b | |- nd (match ?x with _ => _ end) => destruct x end].

Section Terms.
Context (C : crypto).

Lemma nd_label s n l x : nd (make_label C s n l x). Proof. unfold make_label. nds. Qed.
Lemma nd_derive s l x : nd (derive_secret C s l x). Proof. apply nd_label. Qed.
Lemma nd_prk p : nd (from_prk C p). Proof. unfold from_prk. nds. Qed.
Lemma nd_derived s : nd (shared_derived C s). Proof. unfold shared_derived. apply nd_obind; [apply nd_derive|]. intros; nds. Qed.
Lemma nd_traffic s l tr : nd (calculate_traffic_secret C s l tr).
Proof. unfold calculate_traffic_secret. repeat (apply nd_obind; [first [apply nd_derive|apply nd_prk|apply nd_label]|intros ?]). nds. Qed.
Lemma nd_traffics k a b : nd (calculate_traffic_secrets C k a b).
Proof. unfold calculate_traffic_secrets. repeat (apply nd_obind; [apply nd_traffic|intros ?]). nds. Qed.
Lemma nd_early k p : nd (initialize_early_secret C k p).
Proof. unfold initialize_early_secret. apply nd_obind; [apply nd_derive|intros ?]. apply nd_obind; [apply nd_prk|intros ?]. apply nd_obind; [apply nd_derived|intros ?]. nds. Qed.
Lemma nd_hsecret k i : nd (initialize_handshake_secret C k i).
Proof. unfold initialize_handshake_secret. apply nd_obind; [apply nd_traffics|intros ?]. apply nd_obind; [apply nd_derived|intros ?]. nds. Qed.
Lemma nd_master k : nd (initialize_master_secret C k).
Proof. unfold initialize_master_secret. apply nd_obind; [apply nd_traffics|intros ?]. apply nd_obind; [apply nd_derived|intros ?]. nds. Qed.
Lemma nd_client_finished k : nd (create_client_finished C k).
Proof. unfold create_client_finished. apply nd_obind; [apply nd_label|intros ?]. nds. Qed.
Lemma nd_binder w tr : nd (create_psk_binder C w tr).
Proof. unfold create_psk_binder. apply nd_obind; [apply nd_label|intros ?]. nds. Qed.
Lemma nd_verify r v h : nd (verify_server_finished C r v h).
Proof. unfold verify_server_finished. apply nd_obind; [apply nd_label|intros ?]. nds. Qed.
Lemma nd_pad_loop n : forall l i p, nd (pad_loop n i l p).
Proof. induction l; intros i p; cbn [pad_loop]; nds. apply IHl. Qed.
Lemma nd_nonce k : nd (kstate_nonce C k).
Proof. unfold kstate_nonce, ks_get_nonce, pad. apply nd_obind; [apply nd_pad_loop|intros ?]. nds. Qed.
Lemma nd_increment k : nd (increment_counter k). Proof. unfold increment_counter. nds. Qed.

(** ** Code with state *)

Definition halts {S E A} (m : M S E A) : Prop := forall s, nd (fst (m s)).

Lemma h_bind {S E A B} (m : M S E A) (f : A -> M S E B) : halts m -> (forall a, halts (f a)) -> halts (bind m f).
Proof.
  intros H1 H2 s. unfold bind. specialize (H1 s). destruct (m s) as [o s1]. cbn [fst] in H1. destruct o; try discriminate; [apply H2|].
  now destruct H1.
Qed.
Lemma h_ret {S E A} (a : A) : halts (ret a : M S E A). Proof. intros s. discriminate. Qed.
Lemma h_fail {S E A} (e : E) : halts (fail e : M S E A). Proof. intros s. discriminate. Qed.
Lemma h_panic {S E A} p : halts (panic p : M S E A). Proof. intros s. discriminate. Qed.
Lemma h_lift {S E A} (o : outcome E A) : nd o -> halts (lift o : M S E A). Proof. intros H s. exact H. Qed.
Lemma h_get {S E} : halts (get : M S E S). Proof. intros s. discriminate. Qed.
Lemma h_put {S E} (x : S) : halts (put x : M S E unit). Proof. intros s. discriminate. Qed.
Lemma h_modify {S E} f : halts (modify f : M S E unit). Proof. intros s. discriminate. Qed.
Lemma h_gets {S E A} (f : S -> A) : halts (gets f : M S E A). Proof. intros s. discriminate. Qed.
Lemma h_map_err {S E E' A} (g : E -> E') (m : M S E A) : halts m -> halts (map_err g m).
Proof. intros H s. unfold map_err. specialize (H s). destruct (m s). now apply nd_omap_err. Qed.
Lemma h_each {S E T} (l : list T) (f : T -> M S E unit) : (forall x, halts (f x)) -> halts (for_each l f).
Proof. intros H. induction l; cbn [for_each]; [apply h_ret|]. apply h_bind; auto. Qed.
Lemma h_attempt {S E A} (m : M S E A) : halts m -> halts (attempt m).
Proof. intros H s. unfold attempt. specialize (H s). destruct (m s) as [o s1]. cbn [fst] in H. destruct o; try discriminate. now destruct H. Qed.

Ltac outc o H := let x := fresh "o" in assert (H : nd o) by (nds; fail); destruct o; try discriminate; try (now destruct H).
Lemma h_extend b : halts (cb_extend b).
Proof.
  intros c. unfold cb_extend. pose proof (@nd_space tls_error c) as H. destruct (cb_space c) as [sp| | | |]; try discriminate; [|now destruct H].
  destruct (sp <? length b); [discriminate|]. pose proof (@nd_set_rng tls_error _ (cb_buf c) (cb_off c + cb_len c) b) as H1.
  destruct (set_rng (cb_buf c) (cb_off c + cb_len c) b); try discriminate. now destruct H1.
Qed.
Lemma h_push b : halts (cb_push b).
Proof.
  intros c. unfold cb_push. pose proof (@nd_space tls_error c) as H. destruct (cb_space c) as [sp| | | |]; try discriminate; [|now destruct H].
  destruct (0 <? sp); [|discriminate]. pose proof (@nd_set_index tls_error _ (cb_buf c) (cb_off c + cb_len c) b) as H1.
  destruct (set_index (cb_buf c) (cb_off c + cb_len c) b); try discriminate. now destruct H1.
Qed.
Lemma h_set i b : halts (cb_set i b).
Proof.
  intros c. unfold cb_set. destruct (i <? cb_len c); [|discriminate]. pose proof (@nd_set_index tls_error _ (cb_buf c) (cb_off c + i) b) as H1.
  destruct (set_index (cb_buf c) (cb_off c + i) b); try discriminate. now destruct H1.
Qed.
Lemma h_truncate n : halts (cb_truncate n).
Proof.
  intros c. unfold cb_truncate. pose proof (@nd_sub tls_error (cb_capacity c) (cb_off c)) as H1.
  destruct (usize_sub (cb_capacity c) (cb_off c)); try discriminate. now destruct H1.
Qed.
Lemma h_offset n : halts (cb_offset n).
Proof.
  intros c. unfold cb_offset. pose proof (@nd_sub tls_error (cb_len c + cb_off c) n) as H1.
  destruct (usize_sub (cb_len c + cb_off c) n); try discriminate. now destruct H1.
Qed.
Lemma h_forward : halts cb_forward. Proof. intros c. apply h_offset. Qed.
Lemma h_rewind : halts cb_rewind. Proof. apply h_offset. Qed.

Ltac hs := repeat lazymatch goal with
  | |- halts (ret _) => apply h_ret | |- halts (fail _) => apply h_fail | |- halts (panic _) => apply h_panic
  | |- halts get => apply h_get | |- halts (put _) => apply h_put | |- halts (modify _) => apply h_modify | |- halts (gets _) => apply h_gets
  | |- halts (map_err _ _) => apply h_map_err | |- halts (cb_extend _) => apply h_extend | |- halts (cb_push _) => apply h_push
  | |- halts (cb_set _ _) => apply h_set | |- halts (cb_truncate _) => apply h_truncate | |- halts (cb_offset _) => apply h_offset
  | |- halts cb_forward => apply h_forward | |- halts cb_rewind => apply h_rewind | |- halts (for_each _ _) => apply h_each; intros ?
  | |- halts (bind _ _) => apply h_bind; [|intros ?] | |- halts (lift _) => apply h_lift; solve [nds]
  | |- halts (if ?b then _ else _) => destruct b | |- halts (match ?x with _ => _ end) => destruct x end.

Lemma h_u8 {A} (m : W A) : halts m -> halts (with_u8_length m). Proof. intros H. unfold with_u8_length. hs. exact H. Qed.
Lemma h_u16 {A} (m : W A) : halts m -> halts (with_u16_length m). Proof. intros H. unfold with_u16_length, cb_push_u16, cb_set_u16. hs. exact H. Qed.
Lemma h_u24 {A} (m : W A) : halts m -> halts (with_u24_length m). Proof. intros H. unfold with_u24_length, cb_push_u24, cb_set_u24. hs. exact H. Qed.
Ltac ws := repeat first [progress hs|apply h_u8|apply h_u16|apply h_u24].

Lemma h_ext_data d : halts (enc_ext_data d).
Proof.
  destruct d; cbn [enc_ext_data]; unfold enc_server_name, enc_named_group, enc_key_share_entry, enc_psk_ch, enc_named_group, enc_err, cb_push_u16, cb_push_u32; ws.
Qed.
Lemma h_message h : halts (enc_client_handshake C h).
Proof.
  unfold enc_client_handshake, enc_certificate, enc_certificate_verify, enc_finished, enc_client_hello, enc_cert_entry, ext_encode, enc_err, cb_push_u16.
  ws. apply h_ext_data.
Qed.
Lemma h_binders w tr n : halts (write_binders C w tr n).
Proof. induction n; cbn [write_binders]; [apply h_ret|]. unfold enc_binder, enc_err. apply h_bind; [apply h_lift, nd_binder|intros ?]. hs. exact IHn. Qed.
Lemma nd_finalize h w e tr : nd (finalize_client_handshake C h w e tr).
Proof.
  destruct h; try apply nd_ok. cbn [finalize_client_handshake]. unfold finalize_client_hello.
  destruct (cfg_psk (ch_config h)) as [[k ids]|]; [|apply nd_ok]. do 4 (apply nd_obind; [nds|intros ?]).
  pose proof (h_binders w (tr ++ a1) (length ids) (cb_wrap a2)) as H.
  destruct (write_binders C w (tr ++ a1) (length ids) (cb_wrap a2)) as [o c]. cbn [fst] in H. destruct o; try discriminate; [nds|now destruct H].
Qed.
Lemma h_finish r w tr : halts (wb_finish_payload C r w tr).
Proof.
  unfold wb_finish_payload. apply h_bind; [hs|intros ?]. apply h_bind; [hs|intros ?]. apply h_bind.
  - apply h_lift. destruct r as [h [|]|]; cbn [cr_finish]; [apply nd_ok|apply nd_finalize|apply nd_ok].
  - intros [p t]. hs.
Qed.
Lemma h_payload r : halts (cr_encode_payload C r).
Proof. destruct r; cbn [cr_encode_payload]; [apply h_message|]. unfold enc_alert, enc_err. hs. Qed.
Lemma h_with_buffer {A} (m : W A) : halts m -> halts (with_buffer m).
Proof.
  intros H w. unfold with_buffer. specialize (H (cb_wrap_with_pos (wb_buf w) (wb_pos w))). destruct (m _) as [o c]. cbn [fst] in H.
  destruct o; try discriminate. now destruct H.
Qed.
Lemma h_encrypt k : halts (encrypt C k).
Proof.
  unfold encrypt. apply h_bind; [apply h_lift, nd_nonce|intros ?]. apply h_bind; [hs|intros c]. destruct (_ <? _); [hs|].
  apply h_bind; [hs|intros ?]. destruct (c_seal _ _ _ _ _). hs.
Qed.
Lemma h_close_record k : halts (wb_close_record C k).
Proof.
  unfold wb_close_record. apply h_bind; [hs|intros ?]. apply h_bind; [hs|intros ?]. apply h_bind; [unfold wb_set_hdr; hs|intros ?].
  apply h_bind; [|intros ?; hs]. apply h_with_buffer. destruct (negb _); [hs|]. unfold enc_err. hs. apply h_encrypt.
Qed.
Lemma h_write_record r w tr : halts (wb_write_record C r w tr).
Proof.
  unfold wb_write_record. apply h_bind; [hs|intros b]. destruct (wb_hdr b); [hs|].
  apply h_bind; [|intros ?; apply h_bind; [|intros ?; apply h_bind; [apply h_close_record|intros ?; hs]]].
  - unfold wb_start_record. apply h_bind; [hs|intros ?]. destruct (wb_hdr a); [hs|]. apply h_bind; [unfold wb_set_hdr; hs|intros ?].
    apply h_with_buffer. unfold rh_encode, enc_err, cb_push_u16. hs.
  - apply h_with_buffer. apply h_bind; [hs|intros ?]. apply h_bind; [apply h_payload|intros ?]. apply h_bind; [apply h_finish|intros ?]. hs.
Qed.

(** ** The handshake *)

(** Where the reader stands. *)
Definition place (r : rdst) : nat * nat * nat * list rx_event := (length (rd_buf r), rd_decoded r, rd_pending r, rd_rx r).

Lemma wf_place r r' : place r' = place r -> rd_wf r -> rd_wf r'.
Proof. unfold place, rd_wf. intros H. injection H as -> -> -> _. auto. Qed.
Lemma rx_place r r' : place r' = place r -> rd_rx r' = rd_rx r.
Proof. unfold place. intros H. now injection H. Qed.

(** [m] ends and leaves the reader where it is. *)
Definition stays {S A} (pr : S -> rdst) (m : M S tls_error A) : Prop :=
  forall st, let '(o, st') := m st in nd o /\ place (pr st') = place (pr st).

Section Stays.
Context {S : Type} (pr : S -> rdst).
Lemma st_bind {A B} (m : M S tls_error A) (f : A -> M S tls_error B) : stays pr m -> (forall a, stays pr (f a)) -> stays pr (bind m f).
Proof.
  intros H1 H2 st. unfold bind. specialize (H1 st). destruct (m st) as [o st1]. destruct H1 as [N P]. destruct o; try (split; [discriminate|exact P]).
  - specialize (H2 a st1). destruct (f a st1). destruct H2 as [N2 P2]. split; [exact N2|congruence].
  - now destruct N.
Qed.
Lemma st_pure {A} (m : M S tls_error A) : halts m -> (forall st, snd (m st) = st) -> stays pr m.
Proof. intros H1 H2 st. specialize (H1 st). specialize (H2 st). destruct (m st). cbn [fst snd] in *. subst. auto. Qed.
Lemma st_ret {A} (a : A) : stays pr (ret a). Proof. now apply st_pure; [apply h_ret|]. Qed.
Lemma st_fail {A} e : stays pr (fail e : M S tls_error A). Proof. now apply st_pure; [apply h_fail|]. Qed.
Lemma st_panic {A} x : stays pr (panic x : M S tls_error A). Proof. now apply st_pure; [apply h_panic|]. Qed.
Lemma st_lift {A} (o : outcome tls_error A) : nd o -> stays pr (lift o). Proof. intros H. now apply st_pure; [apply h_lift|]. Qed.
Lemma st_get : stays pr get. Proof. now apply st_pure; [apply h_get|]. Qed.
Lemma st_attempt {A} (m : M S tls_error A) : stays pr m -> stays pr (attempt m).
Proof.
  intros H st. unfold attempt. specialize (H st). destruct (m st) as [o s1]. destruct H as [N P]. destruct o; try (split; [discriminate|exact P]). now destruct N.
Qed.
End Stays.

Section Decrypt.
Context {S : Type} (cb : rks -> server_record -> M S tls_error unit) (Hcb : forall k r, halts (cb k r)).

Lemma st_cb r : stays fst (call_cb cb r).
Proof. intros [s x]. unfold call_cb. cbn [fst snd]. pose proof (Hcb (rd_ks s) r x) as H. destruct (cb (rd_ks s) r x). cbn [fst] in H. auto. Qed.
Lemma st_fst {A} (m : M rdst tls_error A) : stays (fun r => r) m -> stays fst (on_fst m : M (rdst * S) tls_error A).
Proof. intros H [s x]. unfold on_fst. cbn [fst snd]. specialize (H s). destruct (m s). exact H. Qed.
Lemma st_transcript tr : stays (fun r => r) (set_transcript tr).
Proof. intros s. split; [apply nd_ok|reflexivity]. Qed.

Lemma st_loop : forall fuel q, pwf q -> length (pb_buf q) - pb_pos q < fuel -> stays fst (handshake_loop C cb fuel q).
Proof.
  induction fuel as [|fuel IH]; intros q Hq Hf; [lia|]. cbn [handshake_loop]. unfold pb_remaining. unfold pwf in Hq. rewrite usize_sub_ok by exact Hq.
  intros st. unfold bind at 1, lift at 1.
  destruct (Nat.eqb_spec (length (pb_buf q) - pb_pos q) 0) as [E|E]; [unfold ret; split; [apply nd_ok|reflexivity]|].
  unfold bind at 1, get at 1.
  pose proof (read_server_handshake_spec C (r_transcript (rd_ks (fst st))) q Hq) as Hs.
  destruct (read_server_handshake C (r_transcript (rd_ks (fst st))) q) as [o q']. destruct o as [[h tr]|e|x| |]; try contradiction; [|split; [apply nd_err|reflexivity]].
  unfold bind at 1, lift at 1. cbn [fst snd].
  apply st_bind; [apply st_fst, st_transcript|]. intros []. apply st_bind; [apply st_cb|]. intros [].
  apply IH; [apply Hs|]. destruct Hs as (E1 & E2 & E3 & _). unfold pwf in E3. rewrite E1 in *. lia.
Qed.

Lemma st_increment : stays (fun r => r) rd_increment.
Proof.
  intros s. unfold rd_increment. unfold bind at 1, get at 1. unfold bind at 1, lift at 1. pose proof (nd_increment (r_state (rd_ks s))) as H.
  destruct (increment_counter (r_state (rd_ks s))); try (split; [discriminate|reflexivity]). now destruct H.
Qed.
Lemma st_write_back off b : stays (fun r => r) (s <- get ;; b <- lift (set_rng (rd_buf s) off b) ;;
   put (mk_rdst b (rd_decoded s) (rd_pending s) (rd_rx s) (rd_ks s))).
Proof.
  intros s. unfold bind at 1, get at 1. unfold bind at 1, lift at 1, set_rng. destruct (Nat.leb_spec (off + length b) (length (rd_buf s))).
  - unfold put, place. cbn [rd_buf rd_decoded rd_pending rd_rx]. rewrite splice_length by lia. split; [discriminate|reflexivity].
  - split; [discriminate|reflexivity].
Qed.
Lemma h_open_in_place key nonce ad : halts (decrypt_in_place C key nonce ad).
Proof. unfold decrypt_in_place. hs. Qed.
Lemma h_strip : halts strip_content_type.
Proof. unfold strip_content_type. hs. Qed.

Lemma st_decrypt rec : stays fst (decrypt_record C cb rec).
Proof.
  destruct rec as [h| |l d|h off data]; cbn [decrypt_record]; try apply st_cb.
  apply st_bind; [apply st_get|intros st0]. apply st_bind; [apply st_lift, nd_nonce|intros nonce].
  pose proof (h_open_in_place (k_key (r_state (rd_ks (fst st0)))) nonce h data) as H1. destruct (decrypt_in_place _ _ _ _ _) as [o data1]. cbn [fst] in H1.
  apply st_bind; [apply st_lift, H1|intros []]. apply st_bind; [apply st_fst, st_write_back|intros []].
  pose proof (h_strip data1) as H2. destruct (strip_content_type data1) as [o2 data2]. cbn [fst] in H2.
  apply st_bind; [apply st_lift, H2|intros t]. apply st_bind; [apply st_lift; nds|intros inner].
  apply st_bind; [|intros []; apply st_fst, st_increment].
  destruct t; try apply st_fail.
  - apply st_bind; [|intros ?; apply st_cb]. apply st_lift.
    pose proof (C01_alert_decode_total inner) as H3. destruct (fst (parse_alert (pb_new inner))); try discriminate. now destruct H3.
  - apply st_loop; [apply pwf_new|]. cbn [pb_new pb_buf pb_pos]. lia.
  - apply st_cb.
Qed.
End Decrypt.

Section Open.
Context {V : Type} (p : provider V) (cfg : tls_config).

Context (Hp : provider_returns p).

Notation Hm A := (M (conn * @hs_data V) tls_error A).
Definition reader (st : conn * @hs_data V) : rdst := cn_rd (fst st).

Lemma h_verify_cb k r : halts (server_verify_cb C p k r).
Proof.
  destruct Hp as (H1 & H2 & H3 & H4).
  assert (Hv : forall A (m : M V tls_error A), (forall v, nd (fst (m v))) -> halts (on_v m)).
  { intros A m H st. unfold on_v. specialize (H (hs_v (snd st))). destruct (m _). exact H. }
  destruct r as [[e| | |ce|ctx|v|f]| |l d|hd off data]; cbn [server_verify_cb]; try apply h_fail; try apply h_ret.
  - destruct (p_has_verifier p); [apply Hv, H2|apply h_ret].
  - unfold cert_request_try_from, mod_sv. hs.
  - destruct (p_has_verifier p); [apply Hv, H3|apply h_ret].
  - apply h_bind; [apply h_lift, nd_verify|]. intros ok. unfold mod_sv, set_sv. hs.
Qed.

Lemma st_conn {A} (m : M conn tls_error A) : stays cn_rd m -> stays reader (on_conn m : Hm A).
Proof. intros H [c h]. unfold on_conn. cbn [fst snd]. specialize (H c). destruct (m c). exact H. Qed.
Lemma st_wh {A} (m : M whalf tls_error A) : halts m -> stays cn_rd (on_wh m).
Proof. intros H c. unfold on_wh. specialize (H (cn_wh c)). destruct (m (cn_wh c)). split; [exact H|reflexivity]. Qed.
Lemma st_rd {A} (m : M rdst tls_error A) : stays (fun r => r) m -> stays cn_rd (on_rd m).
Proof. intros H c. unfold on_rd. specialize (H (cn_rd c)). destruct (m (cn_rd c)). exact H. Qed.
Lemma st_ks f : (forall k, nd (f k)) -> stays cn_rd (on_ks f).
Proof. intros H c. unfold on_ks. specialize (H (cn_keysched c)). destruct (f _); try (split; [discriminate|reflexivity]). now destruct H. Qed.
Lemma st_mod f : stays reader (mod_hs f : Hm unit).
Proof. intros st. unfold mod_hs, modify. split; [discriminate|reflexivity]. Qed.
Lemma h_on_wb {A} (m : M wbuf tls_error A) : halts m -> halts (on_wb m).
Proof. intros H w. unfold on_wb. specialize (H (wh_wb w)). destruct (m _). exact H. Qed.
Lemma h_on_tx {A} (m : M txst io_kind A) : halts m -> halts (on_tx m).
Proof. intros H w. unfold on_tx. specialize (H (wh_tx w)). destruct (m _). now apply nd_omap_err. Qed.
Lemma h_write_all b : halts (tx_write_all b). Proof. intros t. unfold tx_write_all. destruct (tx_wr t) as [|[]]; discriminate. Qed.
Lemma h_tx_flush : halts tx_flush. Proof. intros t. unfold tx_flush. destruct (tx_fl t) as [|[]]; discriminate. Qed.
Lemma h_wh_increment : halts wh_increment.
Proof. unfold wh_increment. apply h_bind; [hs|intros w]. apply h_bind; [apply h_lift, nd_increment|intros k]. hs. Qed.
Lemma h_respond tx : halts (respond tx).
Proof. unfold respond. apply h_bind; [apply h_on_tx, h_write_all|intros ?]. apply h_bind; [apply h_wh_increment|intros ?]. apply h_on_tx, h_tx_flush. Qed.
Lemma st_respond tx : stays reader (on_conn (on_wh (respond tx)) : Hm unit).
Proof. apply st_conn, st_wh, h_respond. Qed.
Lemma st_write r : stays reader (on_conn (cn_write_record C r) : Hm bytes).
Proof.
  apply st_conn. unfold cn_write_record. apply st_bind; [apply st_get|intros c]. apply st_bind; [apply st_wh, h_on_wb, h_write_record|intros s].
  apply st_bind; [apply st_rd, st_transcript|intros ?]. apply st_ret.
Qed.

Lemma st_hpe (m : Hm hs_state) : stays reader m -> stays reader (handle_processing_error C m).
Proof.
  intros H. unfold handle_processing_error. apply st_bind; [now apply st_attempt|]. intros [s|e]; [apply st_ret|].
  destruct e; try apply st_fail. apply st_bind; [apply st_write|intros ?]. apply st_bind; [apply st_respond|intros ?]. apply st_fail.
Qed.

Lemma st_server_hello rec : stays reader (process_server_hello C rec : Hm hs_state).
Proof.
  destruct rec as [[e| | |ce|ctx|v|f]| |l d|hd off data]; cbn [process_server_hello]; try apply st_fail.
  apply st_bind; [apply st_get|intros st]. apply st_bind; [apply st_mod|intros ?]. do 2 (apply st_bind; [apply st_lift; nds|intros ?]).
  apply st_bind; [apply st_conn, st_ks; intros; apply nd_hsecret|intros ?]. apply st_ret.
Qed.
Lemma st_server_verify rec : stays reader (process_server_verify C p rec).
Proof.
  intros [c h]. unfold process_server_verify. pose proof (st_decrypt (server_verify_cb C p) h_verify_cb rec (cn_rd c, (St_ServerVerify, h))) as H.
  destruct (decrypt_record C (server_verify_cb C p) rec (cn_rd c, (St_ServerVerify, h))) as [o [r [s h']]]. destruct H as [N P].
  split; [|exact P]. destruct o; try discriminate. now destruct N.
Qed.

Definition rank (s : hs_state) : nat :=
  match s with
  | St_ClientHello => 6 | St_ServerHello => 5 | St_ServerVerify => 4 | St_ClientCert => 3 | St_ClientCertVerify => 2
  | St_ClientFinished => 1 | St_ApplicationData => 0
  end.
Definition rx_left (c : conn) : nat := rx_size (rd_rx (cn_rd c)).

(** One step of the handshake ends; it goes on to a later state, or it read a record. *)
Definition advances (s : hs_state) (st : conn * @hs_data V) (r : outcome tls_error hs_state * (conn * @hs_data V)) : Prop :=
  nd (fst r) /\ rd_wf (reader (snd r)) /\ rx_left (fst (snd r)) <= rx_left (fst st) /\ forall s', fst r = Ok s' ->
    5 * rank s' + rx_left (fst (snd r)) + 5 <= 5 * rank s + rx_left (fst st).

Lemma stays_advances (m : Hm hs_state) s : stays reader m -> (forall st s' st', m st = (Ok s', st') -> rank s' < rank s) ->
  forall st, rd_wf (reader st) -> advances s st (m st).
Proof.
  intros H1 H2 st Hw. specialize (H1 st). specialize (H2 st). destruct (m st) as [o st1]. destruct H1 as [N P]. split; [exact N|]. cbn [fst snd].
  unfold rx_left. fold (reader st1) (reader st). rewrite (rx_place _ _ P). split; [now apply (wf_place (reader st))|]. split; [lia|].
  intros s' ->. pose proof (H2 s' st1 eq_refl). lia.
Qed.

Lemma reads_advances (f : server_record -> Hm hs_state) s : (forall rec, stays reader (f rec)) ->
  (forall rec st s' st', f rec st = (Ok s', st') -> rank s' <= rank s) ->
  forall st, rd_wf (reader st) -> advances s st ((rec <- on_conn (on_rd (rd_read C)) ;; f rec) st).
Proof.
  intros H1 H2 [c h] Hw. unfold bind, on_conn, on_rd. cbn [fst snd]. unfold reader in Hw. cbn [fst] in Hw.
  destruct (rd_read C (cn_rd c)) as [o r1] eqn:E. apply rd_read_any in E as (W1 & L1 & X1 & Hr); [|exact Hw].
  destruct o as [rec|e|x| |].
  - destruct Hr as [[[] _]|(hd & f0 & Hc & _)]. destruct Hc as (_ & _ & _ & _ & _ & Hx & _).
    set (st1 := (mk_conn r1 (cn_dec c) (cn_wh c) (cn_shared c) (cn_opened c), h)). specialize (H1 rec st1). specialize (H2 rec st1).
    destruct (f rec st1) as [o st2]. destruct H1 as [N P]. split; [exact N|]. cbn [fst snd].
    unfold rx_left. fold (reader st2). rewrite (rx_place _ _ P). split; [apply (wf_place (reader st1) _ P); exact W1|].
    unfold st1, reader. cbn [fst cn_rd]. split; [exact X1|]. intros s' ->. pose proof (H2 s' st2 eq_refl). lia.
  - split; [discriminate|]. split; [exact W1|]. split; [exact X1|intros ? [=]].
  - split; [discriminate|]. split; [exact W1|]. split; [exact X1|intros ? [=]].
  - destruct Hr as [[[] _]|(hd & f0 & _ & Hm)]. destruct (sr_decode _ _ _ _ _); try contradiction; now destruct Hm.
  - split; [discriminate|]. split; [exact W1|]. split; [exact X1|intros ? [=]].
Qed.

Lemma rank_verify rec st s' st' : process_server_verify C p rec st = (Ok s', st') -> rank s' <= rank St_ServerVerify.
Proof.
  destruct st as [c h]. unfold process_server_verify. intros H.
  pose proof (holds_decrypt C (server_verify_cb C p) (fun x => after_verify (fst x)) (server_verify_after C p) rec (cn_rd c, (St_ServerVerify, h)) I) as Ha.
  destruct (decrypt_record C (server_verify_cb C p) rec (cn_rd c, (St_ServerVerify, h))) as [o [r [s h']]]. cbn [fst snd] in Ha.
  apply pair_equal_spec in H as [H _]. destruct o; try discriminate. cbn in H. injection H as <-. destruct s; cbn in *; try contradiction; lia.
Qed.

Lemma process_advances s st : s <> St_ApplicationData -> rd_wf (reader st) -> advances s st (process C p cfg s st).
Proof.
  intros Hs Hw. destruct Hp as (H1 & H2 & H3 & H4).
  destruct s; cbn [process]; [..|contradiction].
  - apply stays_advances; [|intros st0 s' st' E; apply bind_ok in E as (? & ? & _ & E); apply bind_ok in E as (? & ? & _ & E); injection E as <- _; cbn; lia|exact Hw].
    apply st_bind; [|intros tx; apply st_bind; [apply st_respond|intros ?; apply st_ret]].
    unfold do_client_hello. apply st_bind; [apply st_conn, st_ks; intros; apply nd_early|intros ?].
    apply st_bind; [apply st_write|intros ?]. apply st_bind; [apply st_mod|intros ?]. apply st_ret.
  - apply reads_advances; [intros rec; apply st_hpe, st_server_hello| |exact Hw].
    intros rec st0 s' st' E. apply hpe_ok in E. destruct rec as [[e| | |ce|ctx|v|f]| |l d|hd off data]; cbn [process_server_hello] in E; try discriminate.
    repeat (apply bind_ok in E as (? & ? & _ & E)). injection E as <- _. cbn. lia.
  - apply reads_advances; [intros rec; apply st_hpe, st_server_verify| |exact Hw].
    intros rec st0 s' st' E. apply hpe_ok in E. now apply rank_verify in E.
  - apply stays_advances; [| |exact Hw].
    + apply st_bind; [|intros nt; apply st_bind; [apply st_respond|intros ?; apply st_ret]].
      unfold do_client_cert. apply st_bind; [apply st_get|intros st0]. apply st_bind; [apply st_mod|intros ?].
      apply st_bind; [apply st_lift; nds|intros ctx]. destruct (p_client_cert p); (apply st_bind; [apply st_write|intros ?; apply st_ret]).
    + intros st0 s' st' E. apply bind_ok in E as (nt & st1 & E1 & E). apply bind_ok in E as (? & ? & _ & E). injection E as <- _.
      unfold do_client_cert in E1. do 3 (apply bind_ok in E1 as (? & ? & _ & E1)).
      destruct (p_client_cert p); apply bind_ok in E1 as (? & ? & _ & E1); injection E1 as <- _; cbn; lia.
  - apply stays_advances; [| |exact Hw].
    + apply st_bind; [|intros rt; apply st_bind; [apply st_respond|intros ?; destruct (fst rt); [apply st_ret|apply st_fail]]].
      unfold do_client_cert_verify. apply st_bind; [apply st_get|intros st0].
      destruct (p_signer p) as [[sign scheme]|e|x| |]; [|apply st_bind; [apply st_write|intros ?; apply st_ret]|apply st_panic|now destruct H4|apply st_lift, nd_cancelled].
      apply st_bind; [apply st_lift; unfold cv_client_message; nds|intros msg]. destruct (sign msg); [|apply st_panic]. destruct (_ <? _); [apply st_panic|].
      apply st_bind; [apply st_write|intros ?; apply st_ret].
    + intros st0 s' st' E. apply bind_ok in E as (rt & st1 & E1 & E). apply bind_ok in E as (? & ? & _ & E).
      unfold do_client_cert_verify in E1. apply bind_ok in E1 as (? & ? & _ & E1).
      destruct (p_signer p) as [[sign scheme]|e|x3| |]; try discriminate.
      * apply bind_ok in E1 as (? & ? & _ & E1). destruct (sign _); [|discriminate]. destruct (_ <? _); [discriminate|]. apply bind_ok in E1 as (? & ? & _ & E1). injection E1 as <- _.
        injection E as <- _. cbn. lia.
      * apply bind_ok in E1 as (? & ? & _ & E1). injection E1 as <- _. discriminate.
  - apply stays_advances; [| |exact Hw].
    + apply st_bind; [|intros tx; apply st_bind; [apply st_respond|intros ?]].
      * unfold do_client_finished. apply st_bind; [apply st_get|intros st0]. apply st_bind; [apply st_lift, nd_omap_err, nd_client_finished|intros v]. apply st_write.
      * unfold client_finished_finalize. apply st_bind; [apply st_get|intros st0]. apply st_bind; [apply st_mod|intros ?].
        apply st_bind; [apply st_lift; nds|intros tr]. apply st_bind; [apply st_conn, st_rd, st_transcript|intros ?].
        apply st_bind; [apply st_conn, st_ks; intros; apply nd_master|intros ?]. apply st_ret.
    + intros st0 s' st' E. apply bind_ok in E as (? & ? & _ & E). apply bind_ok in E as (? & ? & _ & E). unfold client_finished_finalize in E.
      do 5 (apply bind_ok in E as (? & ? & _ & E)). injection E as <- _. cbn. lia.
Qed.

Lemma state_cases s : s = St_ApplicationData \/ s <> St_ApplicationData.
Proof. destruct s; auto; right; discriminate. Qed.

Lemma open_loop_round fuel s st : s <> St_ApplicationData ->
  open_loop C p cfg (S fuel) s st = (s' <- process C p cfg s ;; open_loop C p cfg fuel s') st.
Proof. now destruct s. Qed.

Lemma open_loop_runs : forall fuel s st, rd_wf (reader st) -> 5 * rank s + rx_left (fst st) < 5 * fuel ->
  let '(o, st') := open_loop C p cfg fuel s st in
  (exists n, handshake_run C p cfg n s st o st' /\ 5 * n <= 5 * rank s + rx_left (fst st) + 5) /\ nd o /\ rd_wf (reader st').
Proof.
  induction fuel as [|fuel IH]; intros s st Hw Hf; [lia|].
  destruct (state_cases s) as [->|Hs].
  { cbn [open_loop]. unfold ret. split; [exists 0; split; [constructor|lia]|]. split; [apply nd_ok|exact Hw]. }
  rewrite open_loop_round by exact Hs. pose proof (process_advances s st Hs Hw) as (N & W1 & X1 & H). unfold bind.
  destruct (process C p cfg s st) as [o st1] eqn:Ep. cbn [fst snd] in *.
  destruct o as [s1|e|x| |].
  - specialize (H s1 eq_refl). specialize (IH s1 st1 W1 ltac:(lia)). destruct (open_loop C p cfg fuel s1 st1) as [o st2].
    destruct IH as ((n & R & Hn) & N2 & W2). split; [|auto]. exists (S n). split; [now apply (hr_round C p cfg s st s1 st1)|lia].
  - split; [exists 1; split; [now constructor|lia]|]. split; [apply nd_err|exact W1].
  - split; [exists 1; split; [now constructor|lia]|]. split; [apply nd_panic|exact W1].
  - now destruct N.
  - split; [exists 1; split; [now constructor|lia]|]. split; [apply nd_cancelled|exact W1].
Qed.

(** [open] is the loop, run to its end. *)
Lemma open_runs v c : rd_wf (cn_rd c) ->
  let '(o, c') := cn_open C p cfg v c in
  nd o /\ rd_wf (cn_rd c') /\
  let h0 := match p_has_verifier p, cfg_server_name cfg with true, Some n => p_set_hostname p n v | _, _ => (Ok tt, v) end in
  match fst h0 with
  | Ok _ => exists n st', handshake_run C p cfg n St_ClientHello (c, hs_new (snd h0)) o st' /\
      5 * n <= 35 + rx_size (rd_rx (cn_rd c)) /\ cn_rd c' = cn_rd (fst st')
  | r => o = r /\ c' = c
  end.
Proof.
  intros Hw. unfold cn_open. cbv zeta. set (h0 := match p_has_verifier p, _ with true, Some n => _ | _, _ => _ end).
  assert (N0 : nd (fst h0)).
  { unfold h0. destruct (p_has_verifier p); [|apply nd_ok]. destruct (cfg_server_name cfg) as [n|]; [|apply nd_ok]. apply Hp. }
  destruct h0 as [o0 v']. cbn [fst snd] in *.
  unfold bind, lift. destruct o0 as [[]|e|x| |]; try (split; [discriminate|split; [exact Hw|split; reflexivity]]); [|now destruct N0].
  pose proof (open_loop_runs (8 + rx_size (rd_rx (cn_rd c))) St_ClientHello (c, hs_new v') Hw ltac:(unfold rx_left; cbn [rank fst]; lia)) as H.
  destruct (open_loop _ _ _ _ _ _) as [o [c' h']]. destruct H as ((n & R & Hn) & N & W). cbn [rank fst] in Hn. unfold rx_left in Hn. unfold reader in W. cbn [fst] in W.
  assert (G : exists n st', handshake_run C p cfg n St_ClientHello (c, hs_new v') o st' /\ 5 * n <= 35 + rx_size (rd_rx (cn_rd c)) /\ cn_rd c' = cn_rd (fst st')).
  { exists n, (c', h'). split; [exact R|]. split; [lia|reflexivity]. }
  destruct o as [[]|e|x| |]; try (split; [discriminate|split; [exact W|exact G]]). now destruct N.
Qed.
End Open.

(** ** Receiving *)

Lemma h_read_handler n k r : halts (read_handler n k r).
Proof.
  destruct r as [[e| | |ce|ctx|v|f]| |l d|hd off data]; cbn [read_handler]; try apply h_panic; try apply h_fail; try apply h_ret.
  - destruct d; cbn; try apply h_fail; hs.
  - apply h_bind; [apply h_lift; nds|intros s]. destruct (_ && _); [hs|apply h_panic].
Qed.

Definition left (st : rhalf) : nat := rx_size (rd_rx (fst st)).

Lemma rad_advances st : rd_wf (fst st) -> let '(o, st') := read_application_data C st in
  nd o /\ rd_wf (fst st') /\ left st' <= left st /\ (o = Ok tt -> left st' + 5 <= left st).
Proof.
  intros Hw. unfold read_application_data. unfold bind at 1, on_fst at 1. destruct st as [r x]. cbn [fst snd] in *.
  destruct (rd_read C r) as [o r1] eqn:E. apply rd_read_any in E as (W1 & L1 & X1 & Hr); [|exact Hw]. unfold left. cbn [fst].
  destruct o as [rec|e|y| |].
  - destruct Hr as [[[] _]|(hd & f0 & Hc & _)]. destruct Hc as (_ & _ & _ & _ & _ & Hx & _).
    unfold bind at 1, get at 1. cbn [fst].
    pose proof (st_decrypt (read_handler (length (rd_buf r1))) (h_read_handler _) rec (r1, x)) as H.
    destruct (decrypt_record C _ rec (r1, x)) as [o st2]. destruct H as [N P]. cbn [fst] in P. rewrite (rx_place _ _ P).
    split; [exact N|]. split; [now apply (wf_place r1)|]. split; [exact X1|lia].
  - split; [discriminate|]. split; [exact W1|]. split; [exact X1|discriminate].
  - split; [discriminate|]. split; [exact W1|]. split; [exact X1|discriminate].
  - destruct Hr as [[[] _]|(hd & f0 & _ & Hm)]. destruct (sr_decode _ _ _ _ _); try contradiction; now destruct Hm.
  - split; [discriminate|]. split; [exact W1|]. split; [exact X1|discriminate].
Qed.

Lemma fill_runs : forall fuel st, rd_wf (fst st) -> left st < fuel -> let '(o, st') := fill_loop C fuel st in
  (exists n, fill_run C n st o st' /\ 5 * n <= left st + 5) /\ nd o /\ rd_wf (fst st').
Proof.
  induction fuel as [|fuel IH]; intros st Hw Hf; [lia|]. cbn [fill_loop]. unfold bind at 1, get at 1. unfold bind at 1, lift at 1.
  destruct (dec_is_empty (fst (snd st))) as [[|]|e|x| |] eqn:Ed; cbn [negb].
  - pose proof (rad_advances st Hw) as H. unfold bind. destruct (read_application_data C st) as [o st1] eqn:E. destruct H as (N & W1 & X1 & H5).
    destruct o as [[]|e|x| |].
    + specialize (H5 eq_refl). specialize (IH st1 W1 ltac:(lia)). destruct (fill_loop C fuel st1) as [o st2].
      destruct IH as ((n & R & Hn) & N2 & W2). split; [|auto]. exists (S n). split; [now apply (fr_round C st st1)|lia].
    + split; [exists 1; split; [now constructor|lia]|]. split; [apply nd_err|exact W1].
    + split; [exists 1; split; [now constructor|lia]|]. split; [apply nd_panic|exact W1].
    + now destruct N.
    + split; [exists 1; split; [now constructor|lia]|]. split; [apply nd_cancelled|exact W1].
  - unfold ret. split; [exists 0; split; [now constructor|lia]|]. split; [apply nd_ok|exact Hw].
  - exfalso. revert Ed. unfold dec_is_empty, dec_remaining, usize_sub. destruct (_ <=? _); discriminate.
  - split; [exists 0; split; [now constructor|lia]|]. split; [apply nd_panic|exact Hw].
  - exfalso. revert Ed. unfold dec_is_empty, dec_remaining, usize_sub. destruct (_ <=? _); discriminate.
  - exfalso. revert Ed. unfold dec_is_empty, dec_remaining, usize_sub. destruct (_ <=? _); discriminate.
Qed.

(** [m] ends and keeps the reader in order. *)
Definition ends {A} (m : M rhalf tls_error A) : Prop :=
  forall st, rd_wf (fst st) -> let '(o, st') := m st in nd o /\ rd_wf (fst st').
Lemma e_bind {A B} (m : M rhalf tls_error A) (f : A -> M rhalf tls_error B) : ends m -> (forall a, ends (f a)) -> ends (bind m f).
Proof.
  intros H1 H2 st Hw. unfold bind. specialize (H1 st Hw). destruct (m st) as [o st1]. destruct H1 as [N W].
  destruct o as [a|e|x| |]; try (split; [discriminate|exact W]); [|now destruct N]. apply (H2 a st1 W).
Qed.
Lemma e_stays {A} (m : M rhalf tls_error A) : stays fst m -> ends m.
Proof. intros H st Hw. specialize (H st). destruct (m st) as [o st1]. destruct H as [N P]. split; [exact N|now apply (wf_place (fst st))]. Qed.
Lemma e_lift {A} (o : outcome tls_error A) : nd o -> ends (lift o). Proof. intros H. now apply e_stays, st_lift. Qed.
Lemma e_ret {A} (a : A) : ends (ret a). Proof. apply e_stays, st_ret. Qed.
Lemma e_get : ends get. Proof. apply e_stays, st_get. Qed.
Lemma e_drop r : ends (rh_drop r).
Proof. intros st Hw. split; [apply nd_ok|exact Hw]. Qed.
Lemma e_buffered : ends (rh_read_buffered C).
Proof.
  intros st Hw. unfold rh_read_buffered. unfold bind at 1, get at 1. destruct st as [r [d op]]. destruct op; [|split; [apply nd_err|exact Hw]].
  unfold bind at 1. pose proof (fill_runs (S (rx_size (rd_rx r))) (r, (d, true)) Hw ltac:(unfold left; cbn [fst]; lia)) as H. cbn [fst].
  destruct (fill_loop C (S (rx_size (rd_rx r))) (r, (d, true))) as [o st1]. destruct H as (_ & N & W).
  destruct o as [[]|e|x| |]; try (split; [discriminate|exact W]); [|now destruct N].
  unfold bind, get, lift. split; [|exact W]. unfold create_read_buffer. nds.
Qed.
Lemma nd_pop n r : nd (rb_pop n r). Proof. unfold rb_pop, rb_len. nds. Qed.
Lemma nd_pop_into b r : nd (rb_pop_into b r). Proof. unfold rb_pop_into. apply nd_obind; [apply nd_pop|intros ?]. nds. Qed.
Lemma nd_peek n r : nd (rb_peek n r). Proof. unfold rb_peek, rb_len. nds. Qed.
Lemma nd_peek_all r : nd (rb_peek_all r). Proof. unfold rb_peek_all, rb_len. apply nd_obind; [nds|intros ?; apply nd_peek]. Qed.
Lemma nd_pop_all r : nd (rb_pop_all r). Proof. unfold rb_pop_all, rb_len. apply nd_obind; [nds|intros ?; apply nd_pop]. Qed.
Lemma nd_rb_step o r : nd (rb_step o r).
Proof.
  destruct o; cbn [rb_step]; [apply nd_peek|apply nd_peek_all|apply nd_pop|apply nd_pop_all|].
  apply nd_obind; [apply nd_pop_into|]. intros [[b m] r']. apply nd_ok.
Qed.
Lemma nd_rb_run : forall ops r, nd (rb_run ops r).
Proof.
  induction ops as [|o ops IH]; intros r; cbn [rb_run]; [apply nd_ok|]. apply nd_obind; [apply nd_rb_step|intros q].
  apply nd_obind; [apply IH|intros ?; apply nd_ok].
Qed.

Lemma h_flush : halts (wh_flush C).
Proof.
  unfold wh_flush. apply h_bind; [hs|intros w]. destruct (wb_is_empty _); [hs|].
  apply h_bind; [apply h_on_wb, h_close_record|intros s]. apply h_bind; [apply h_on_tx, h_write_all|intros ?].
  apply h_bind; [apply h_wh_increment|intros ?]. destruct (policy_flush_transport _); [apply h_on_tx, h_tx_flush|hs].
Qed.
Lemma h_start_record r : halts (wb_start_record r).
Proof.
  unfold wb_start_record. apply h_bind; [hs|intros ?]. destruct (wb_hdr a); [hs|]. apply h_bind; [unfold wb_set_hdr; hs|intros ?].
  apply h_with_buffer. unfold rh_encode, enc_err, cb_push_u16. hs.
Qed.
Lemma h_write op b : halts (wh_write C op b).
Proof.
  unfold wh_write. destruct op; [|apply h_fail]. apply h_bind; [hs|intros w]. apply h_bind.
  { destruct (wb_contains _ _); [hs|]. apply h_bind; [apply h_flush|intros ?]. apply h_on_wb, h_start_record. }
  intros ?. apply h_bind; [hs|intros w1]. apply h_bind; [apply h_lift; unfold wb_append, wb_max_block; nds|intros nb].
  apply h_bind; [apply h_on_wb; hs|intros ?]. apply h_bind; [apply h_lift; unfold wb_is_full, wb_max_block; nds|intros f].
  apply h_bind; [destruct f; [apply h_flush|hs]|intros ?]. hs.
Qed.
Lemma st_cn_write_record r : stays cn_rd (cn_write_record C r).
Proof.
  unfold cn_write_record. apply st_bind; [apply st_get|intros c]. apply st_bind; [apply st_wh, h_on_wb, h_write_record|intros s].
  apply st_bind; [apply st_rd, st_transcript|intros ?]. apply st_ret.
Qed.
Lemma e_rh {A} (m : M rhalf tls_error A) c : ends m -> rd_wf (cn_rd c) -> let '(o, c') := on_rh m c in nd o /\ rd_wf (cn_rd c').
Proof. intros H Hw. unfold on_rh. specialize (H (cn_rd c, (cn_dec c, cn_opened c)) Hw). destruct (m _) as [o [r [d op]]]. exact H. Qed.

Lemma step_ends o c : rd_wf (cn_rd c) -> let '(r, c') := step C o c in nd r /\ rd_wf (cn_rd c').
Proof.
  intros Hw.
  assert (Hst : forall (m : M conn tls_error value), stays cn_rd m -> let '(r, c') := m c in nd r /\ rd_wf (cn_rd c')).
  { intros m H. specialize (H c). destruct (m c) as [r c']. destruct H as [N P]. split; [exact N|now apply (wf_place (cn_rd c))]. }
  assert (Hrh : forall A (m : M rhalf tls_error A) (g : A -> value), ends m ->
     let '(r, c') := (x <- on_rh m ;; ret (g x)) c in nd r /\ rd_wf (cn_rd c')).
  { intros A m g H. unfold bind. pose proof (e_rh m c H Hw) as G. destruct (on_rh m c) as [r c']. destruct G as [N W].
    destruct r; try (split; [discriminate|exact W]). now destruct N. }
  destruct o as [b| |pol|dst| |n|ops fin|]; cbn [step].
  - apply Hst. apply st_bind; [|intros ?; apply st_ret]. unfold cn_write. apply st_bind; [apply st_get|intros c0]. apply st_wh, h_write.
  - apply Hst. apply st_bind; [|intros ?; apply st_ret]. apply st_wh, h_flush.
  - apply Hst. apply st_bind; [|intros ?; apply st_ret]. apply st_wh. hs.
  - apply (Hrh _ _ (fun nb => VRead (fst nb) (snd nb))). unfold rh_read. destruct (_ =? _); [apply e_ret|].
    apply e_bind; [apply e_buffered|intros r]. apply e_bind; [apply e_lift, nd_pop_into|intros bnr].
    apply e_bind; [apply e_drop|intros ?]. apply e_ret.
  - apply (Hrh _ _ VBytes). unfold rh_fill_buf. apply e_bind; [apply e_buffered|intros r]. apply e_bind; [apply e_lift, nd_peek_all|intros bnr].
    apply e_bind; [apply e_drop|intros ?]. apply e_ret.
  - apply (Hrh _ _ (fun _ => VUnit)). unfold rh_consume. apply e_bind; [apply e_get|intros st].
    apply e_bind; [apply e_lift; unfold create_read_buffer; nds|intros r]. apply e_bind; [apply e_lift, nd_pop|intros ?]. apply e_drop.
  - apply (Hrh _ _ VSlices). unfold rh_with_buffer. apply e_bind; [apply e_buffered|intros r]. apply e_bind; [apply e_lift, nd_rb_run|intros q].
    apply e_bind; [|intros ?; apply e_ret]. destruct fin; [apply e_drop|]. apply e_bind; [apply e_get|intros st].
    intros st1 W1. split; [apply nd_ok|exact W1].
  - apply Hst. apply st_bind; [|intros ?; apply st_ret]. unfold cn_close. apply st_bind; [apply st_wh, h_flush|intros ?].
    apply st_bind; [apply st_get|intros c0]. apply st_bind; [apply st_cn_write_record|intros s].
    apply st_bind; [apply st_wh, h_on_tx, h_write_all|intros ?]. apply st_bind; [apply st_wh, h_wh_increment|intros ?]. apply st_wh, h_on_tx, h_tx_flush.
Qed.

Definition call_returns {V} (x : call V) : Prop := match x with COpen p _ _ => provider_returns p | COp _ => True end.

Lemma life_ends {V} : forall (l : list (call V)) c, rd_wf (cn_rd c) -> Forall call_returns l -> Forall nd (life C l c).
Proof.
  induction l as [|x l IH]; intros c Hw Hl; [constructor|]. apply Forall_cons_iff in Hl as [Hx Hl]. cbn [life].
  assert (G : let '(r, c') := call_step C x c in nd r /\ rd_wf (cn_rd c')).
  { destruct x as [p cfg v|o]; cbn [call_step].
    - pose proof (open_runs p cfg Hx v c Hw) as H. destruct (cn_open C p cfg v c). destruct H as (H1 & H2 & _). auto.
    - pose proof (step_ends o c Hw) as H. destruct (step C o c) as [r c']. destruct H as [H1 H2]. split; [|exact H2].
      destruct r; try discriminate. now destruct H1. }
  destruct (call_step C x c) as [r c']. destruct G as [G1 G2]. destruct r as [[]|e|y| |]; repeat constructor; auto; try discriminate.
Qed.
End Terms.
