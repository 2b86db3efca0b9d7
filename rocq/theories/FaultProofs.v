(** * Every call says what the transport did *)
From Coq Require Import String List NArith Arith Bool Lia ZArith.
From Coq.Strings Require Import Byte.
From Coq Require Import ZifyBool ZifyNat ZifyN.
From Verif Require Import Base ParseBuffer Buffer Codes Extensions Crypto KeySchedule Config Handshake Record WriteBuffer
  Transport RecordReader ReadBuffer Connection Api SpecFaults HsProofs.
Import ListNotations.
Local Open Scope list_scope.

(** ** Results that say nothing about the transport *)

Class noise (E : Type) := noisy : E -> bool.
#[global] Instance noise_parse : noise parse_error := fun _ => false.
#[global] Instance noise_tls : noise tls_error := fun e => match e with Io _ | IoError => true | _ => false end.

Definition hush {E A} `{noise E} (o : outcome E A) : Prop :=
  match o with Err e => noisy e = false | Cancelled => False | _ => True end.
Lemma hush_no_io {A} (o : outcome tls_error A) : no_io o -> hush o.
Proof. destruct o as [|e| | |]; cbn; auto. destruct e; cbn; try reflexivity; contradiction. Qed.

Section Pure.
Context {E : Type} `{noise E}.
Lemma h_obind {A B} (o : outcome E A) (f : A -> outcome E B) : hush o -> (forall a, hush (f a)) -> hush (obind o f).
Proof. intros H1 H2. destruct o; cbn [obind]; try exact I; [apply H2|exact H1|exact H1]. Qed.
Lemma h_ok {A} (a : A) : hush (Ok a : outcome E A). Proof. exact I. Qed.
Lemma h_err {A} (e : E) : noisy e = false -> hush (Err e : outcome E A). Proof. auto. Qed.
Lemma h_panic {A} p : hush (Panic p : outcome E A). Proof. exact I. Qed.
Lemma h_diverge {A} : hush (Diverge : outcome E A). Proof. exact I. Qed.
Lemma h_slice {A} (l : list A) a b : hush (slice_rng l a b : outcome E _).
Proof. unfold slice_rng, hush. destruct (_ && _); exact I. Qed.
Lemma h_from {A} (l : list A) a : hush (slice_from l a : outcome E _).
Proof. apply h_slice. Qed.
Lemma h_set_rng {A} (l : list A) a b : hush (set_rng l a b : outcome E _).
Proof. unfold set_rng, hush. destruct (_ <=? _); exact I. Qed.
Lemma h_set_index {A} (l : list A) a b : hush (set_index l a b : outcome E _).
Proof. unfold set_index, hush. destruct (_ <? _); exact I. Qed.
Lemma h_index {A} (l : list A) a : hush (index l a : outcome E _).
Proof. unfold index, hush. destruct (nth_error _ _); exact I. Qed.
Lemma h_sub a b : hush (usize_sub a b : outcome E _).
Proof. unfold usize_sub, hush. destruct (_ <=? _); exact I. Qed.
Lemma h_unwrap {A} (o : option A) : hush (unwrap o : outcome E _). Proof. destruct o; exact I. Qed.
Lemma h_ok_or {A} (e : E) (o : option A) : noisy e = false -> hush (ok_or e o). Proof. destruct o; [intros; exact I|apply h_err]. Qed.
Lemma h_as_slice c : hush (cb_as_slice c : outcome E _). Proof. apply h_slice. Qed.
Lemma h_space c : hush (cb_space c : outcome E _). Proof. apply h_sub. Qed.
Lemma h_remaining p : hush (pb_remaining p : outcome E _). Proof. apply h_sub. Qed.
End Pure.
Lemma h_omap_err {E E' A} `{noise E} `{noise E'} (g : E -> E') (o : outcome E A) :
  hush o -> (forall e, noisy (g e) = false) -> hush (omap_err g o).
Proof. intros H1 Hg. destruct o; cbn [omap_err]; try exact I; [apply Hg|exact H1]. Qed.
Lemma h_hv cap v bs : hush (hv_extend cap v bs). Proof. unfold hv_extend, hush. destruct (_ <=? _); [exact I|reflexivity]. Qed.

Ltac hs := repeat first [apply h_ok|apply h_err; reflexivity|apply h_panic|apply h_diverge|apply h_slice|apply h_from|apply h_set_rng|apply h_set_index
  |apply h_index|apply h_sub|apply h_unwrap|apply h_ok_or; reflexivity|apply h_as_slice|apply h_space|apply h_remaining|apply h_hv
  |apply h_obind; [|intros ?]
  |match goal with |- hush (if ?b then _ else _) => destruct b | |- hush (match ?x with _ => _ end) => destruct x end].

(** ** Code with a state of its own *)

Definition mute {S E A} `{noise E} (m : M S E A) : Prop := forall s, hush (fst (m s)).

Section Mute.
Context {S E : Type} `{noise E}.
Lemma m_bind {A B} (m : M S E A) (f : A -> M S E B) : mute m -> (forall a, mute (f a)) -> mute (bind m f).
Proof.
  intros H1 H2 s. unfold bind. specialize (H1 s). destruct (m s) as [o s1]. cbn [fst] in H1. destruct o; try exact I; [apply H2| |];
  exact H1.
Qed.
Lemma m_ret {A} (a : A) : mute (ret a : M S E A). Proof. intros s. exact I. Qed.
Lemma m_fail {A} (e : E) : noisy e = false -> mute (fail e : M S E A). Proof. intros He s. exact He. Qed.
Lemma m_panic {A} p : mute (panic p : M S E A). Proof. intros s. exact I. Qed.
Lemma m_lift {A} (o : outcome E A) : hush o -> mute (lift o : M S E A). Proof. intros Ho s. exact Ho. Qed.
Lemma m_get : mute (get : M S E S). Proof. intros s. exact I. Qed.
Lemma m_put (x : S) : mute (put x : M S E unit). Proof. intros s. exact I. Qed.
Lemma m_modify f : mute (modify f : M S E unit). Proof. intros s. exact I. Qed.
Lemma m_gets {A} (f : S -> A) : mute (gets f : M S E A). Proof. intros s. exact I. Qed.
Lemma m_each {T} (l : list T) (f : T -> M S E unit) : (forall x, mute (f x)) -> mute (for_each l f).
Proof. intros Hf. induction l; cbn [for_each]; [apply m_ret|]. apply m_bind; auto. Qed.
Lemma m_attempt {A} (m : M S E A) : mute m -> mute (attempt m).
Proof. intros Hm s. unfold attempt. specialize (Hm s). destruct (m s) as [o s1]. destruct o; try exact I. exact Hm. Qed.
End Mute.
Lemma m_map_err {S E E' A} `{noise E} `{noise E'} (g : E -> E') (m : M S E A) : mute m -> (forall e, noisy (g e) = false) -> mute (map_err g m).
Proof. intros Hm Hg s. unfold map_err. specialize (Hm s). destruct (m s). now apply h_omap_err. Qed.

Lemma m_extend b : mute (cb_extend b).
Proof.
  intros c. unfold cb_extend. pose proof (h_space (E := tls_error) c) as H. destruct (cb_space c) as [sp| | | |]; try exact I; try exact H.
  destruct (sp <? length b); [reflexivity|]. pose proof (@h_set_rng tls_error _ _ (cb_buf c) (cb_off c + cb_len c) b) as H1.
  destruct (set_rng (cb_buf c) (cb_off c + cb_len c) b); try exact I; exact H1.
Qed.
Lemma m_push b : mute (cb_push b).
Proof.
  intros c. unfold cb_push. pose proof (h_space (E := tls_error) c) as H. destruct (cb_space c) as [sp| | | |]; try exact I; try exact H.
  destruct (0 <? sp); [|reflexivity]. pose proof (@h_set_index tls_error _ _ (cb_buf c) (cb_off c + cb_len c) b) as H1.
  destruct (set_index (cb_buf c) (cb_off c + cb_len c) b); try exact I; exact H1.
Qed.
Lemma m_set i b : mute (cb_set i b).
Proof.
  intros c. unfold cb_set. destruct (i <? cb_len c); [|reflexivity]. pose proof (@h_set_index tls_error _ _ (cb_buf c) (cb_off c + i) b) as H1.
  destruct (set_index (cb_buf c) (cb_off c + i) b); try exact I; exact H1.
Qed.
Lemma m_truncate n : mute (cb_truncate n).
Proof.
  intros c. unfold cb_truncate. pose proof (@h_sub tls_error _ (cb_capacity c) (cb_off c)) as H1.
  destruct (usize_sub (cb_capacity c) (cb_off c)); try exact I; exact H1.
Qed.
Lemma m_offset n : mute (cb_offset n).
Proof.
  intros c. unfold cb_offset. pose proof (@h_sub tls_error _ (cb_len c + cb_off c) n) as H1.
  destruct (usize_sub (cb_len c + cb_off c) n); try exact I; exact H1.
Qed.
Lemma m_forward : mute cb_forward. Proof. intros c. apply m_offset. Qed.
Lemma m_rewind : mute cb_rewind. Proof. apply m_offset. Qed.
Lemma m_take n : mute (pb_take n).
Proof.
  intros p. unfold pb_take. destruct (_ <=? _); [|reflexivity].
  pose proof (@h_slice parse_error _ _ (pb_buf p) (pb_pos p) (pb_pos p + n)) as H1.
  destruct (slice_rng _ _ _); try exact I; exact H1.
Qed.
Lemma m_read_u8 : mute read_u8.
Proof.
  intros p. unfold read_u8. destruct (_ <? _); [|reflexivity].
  pose proof (@h_index parse_error _ _ (pb_buf p) (pb_pos p)) as H1.
  destruct (index _ _); try exact I; exact H1.
Qed.

Ltac ms := repeat lazymatch goal with
  | |- mute (ret _) => apply m_ret | |- mute (fail _) => apply m_fail; reflexivity | |- mute (panic _) => apply m_panic
  | |- mute get => apply m_get | |- mute (put _) => apply m_put | |- mute (modify _) => apply m_modify | |- mute (gets _) => apply m_gets
  | |- mute (map_err _ _) => apply m_map_err; [|intros ?; reflexivity] | |- mute (cb_extend _) => apply m_extend | |- mute (cb_push _) => apply m_push
  | |- mute (cb_set _ _) => apply m_set | |- mute (cb_truncate _) => apply m_truncate | |- mute (cb_offset _) => apply m_offset
  | |- mute cb_forward => apply m_forward | |- mute cb_rewind => apply m_rewind | |- mute (for_each _ _) => apply m_each; intros ?
  | |- mute (pb_take _) => apply m_take | |- mute read_u8 => apply m_read_u8
  | |- mute (attempt _) => apply m_attempt
  | |- mute (bind _ _) => apply m_bind; [|intros ?] | |- mute (lift _) => apply m_lift; try solve [hs]
  | |- mute (if ?b then _ else _) => destruct b | |- mute (match ?x with _ => _ end) => destruct x end.

(** ** Parsing *)

Lemma m_slice n : mute (pb_slice n). Proof. unfold pb_slice. ms. Qed.
Lemma m_u16r : mute read_u16. Proof. unfold read_u16. ms. Qed.
Lemma m_u24r : mute read_u24. Proof. unfold read_u24. ms. Qed.
Lemma m_u32r : mute read_u32. Proof. unfold read_u32. ms. Qed.
Lemma m_code {A} (o : option A) : mute (of_code o). Proof. unfold of_code. ms. Qed.
Ltac mp := repeat first [progress ms|apply m_slice|apply m_u16r|apply m_u24r|apply m_u32r|apply m_code].
Lemma h_list_loop {T} cap (r : P parse_error T) : mute r -> forall fuel acc d, hush (read_list_loop fuel cap r acc d).
Proof.
  intros Hr. induction fuel as [|f IH]; intros acc d; cbn [read_list_loop]; destruct (pb_is_empty d); try exact I.
  specialize (Hr d). destruct (r d) as [o d']. destruct o; try exact I; try exact Hr. destruct (_ <? _); [apply IH|reflexivity].
Qed.
Lemma m_list {T} cap n (r : P parse_error T) : mute r -> mute (read_list cap n r).
Proof. intros Hr. unfold read_list. apply m_bind; [apply m_slice|intros d]. apply m_lift, h_list_loop, Hr. Qed.
Lemma h_alpn : forall fuel d, hush (alpn_loop fuel d).
Proof.
  induction fuel as [|f IH]; intros d; cbn [alpn_loop]; destruct (pb_is_empty d); try exact I.
  match goal with |- context [match ?m d with _ => _ end] => assert (Hm : mute m) by mp; specialize (Hm d); destruct (m d) as [o d'] end.
  destruct o; try exact I; try exact Hm. apply IH.
Qed.
Lemma m_share : mute parse_key_share_entry.
Proof. unfold parse_key_share_entry, parse_named_group. mp. Qed.
Lemma m_group (g : ext_group) t m : g = grp_client_hello \/ g = grp_server_hello \/ g = grp_encrypted_ext \/ g = grp_cert_request \/
  g = grp_certificate \/ g = grp_new_session_ticket -> g t = Some m -> mute m.
Proof.
  assert (Hn : mute parse_name_type) by (unfold parse_name_type; mp).
  assert (H1 : mute (parse_server_names 1)) by (unfold parse_server_names, parse_server_name; mp; apply m_list; mp; exact Hn).
  assert (H2 : mute (parse_versions_ch 1)) by (unfold parse_versions_ch; mp; apply m_list; mp).
  assert (H3 : mute (parse_sig_algs 25)) by (unfold parse_sig_algs, parse_sig_scheme; mp; apply m_list; mp).
  assert (H4 : mute (parse_groups 13)) by (unfold parse_groups, parse_named_group; mp; apply m_list; mp).
  assert (H5 : mute (parse_key_shares_ch 1)) by (unfold parse_key_shares_ch; mp; apply m_list, m_share).
  assert (H6 : mute parse_psk_ch) by (unfold parse_psk_ch; mp).
  assert (H7 : mute (parse_psk_modes 4)) by (unfold parse_psk_modes, parse_psk_mode; mp; apply m_list; mp).
  assert (H8 : mute parse_max_frag_ext) by (unfold parse_max_frag_ext, parse_max_frag; mp).
  assert (H9 : mute parse_alpn) by (unfold parse_alpn; mp; apply h_alpn).
  assert (H10 : mute parse_unimpl) by (unfold parse_unimpl; mp).
  assert (H11 : mute parse_key_share_sh) by (unfold parse_key_share_sh; mp; try apply m_share).
  assert (H12 : mute parse_psk_sh) by (unfold parse_psk_sh; mp).
  assert (H13 : mute parse_version_sh) by (unfold parse_version_sh; mp).
  assert (H14 : mute parse_server_name_response) by (unfold parse_server_name_response; mp).
  intros [->|[->|[->|[->|[->| ->]]]]] Hg; destruct t; cbn in Hg; try discriminate; injection Hg as <-; assumption.
Qed.

Definition known_group (g : ext_group) : Prop := g = grp_client_hello \/ g = grp_server_hello \/ g = grp_encrypted_ext \/ g = grp_cert_request \/
  g = grp_certificate \/ g = grp_new_session_ticket.
Lemma m_ext g : known_group g -> mute (ext_parse g).
Proof.
  intros Hk. unfold ext_parse, pq, parse_ext_type. apply m_bind; [mp|intros ety]. apply m_bind; [mp|intros n]. apply m_bind; [mp|intros d].
  destruct ety as [t|e]; [|destruct e as [| | | | | | | | | | | | | | | | | | | | | | | | | | |[]| | | | |]; mp].
  destruct (g t) as [m|] eqn:Eg; [|mp]. pose proof (m_group g t m Hk Eg d) as Hm. destruct (m d) as [o d1].
  apply m_bind; [|intros x; mp]. apply m_lift. apply h_omap_err; [exact Hm|reflexivity].
Qed.
Lemma h_vector_loop g cap : known_group g -> forall fuel acc d, hush (ext_vector_loop g fuel cap acc d).
Proof.
  intros Hk. induction fuel as [|f IH]; intros acc d; cbn [ext_vector_loop]; destruct (pb_is_empty d); try exact I.
  pose proof (m_ext g Hk d) as Hm. destruct (ext_parse g d) as [o d']. destruct o as [e|e|x| |]; try exact I; try exact Hm.
  - destruct (_ <? _); [apply IH|reflexivity].
  - destruct e; try exact Hm. apply IH.
Qed.
Lemma m_vector g cap : known_group g -> mute (ext_parse_vector g cap).
Proof. intros Hk. unfold ext_parse_vector, pq. apply m_bind; [mp|intros n]. apply m_bind; [mp|intros d]. apply m_lift, h_vector_loop, Hk. Qed.
Ltac kg := unfold known_group; tauto.
Lemma m_entry : mute parse_cert_entry.
Proof. unfold parse_cert_entry. mp. apply m_vector; kg. Qed.
Lemma h_entries cap : forall fuel acc d, hush (cert_entries_loop fuel cap acc d).
Proof.
  induction fuel as [|f IH]; intros acc d; cbn [cert_entries_loop]; destruct (pb_is_empty d); try exact I.
  pose proof (m_entry d) as Hm. destruct (parse_cert_entry d) as [o d']. destruct o; try exact I; try exact Hm.
  destruct (_ <? _); [apply IH|reflexivity].
Qed.

Section Terms.
Context (C : crypto).

Lemma m_message_read : mute (parse_server_handshake C).
Proof.
  unfold parse_server_handshake. apply m_bind; [mp|intros t]. apply m_bind; [mp|intros _]. destruct t; mp.
  - unfold parse_server_hello, pq, pb_fill. mp. apply m_vector; kg.
  - unfold parse_new_session_ticket, pq. mp. apply m_vector; kg.
  - unfold parse_encrypted_extensions. mp. apply m_vector; kg.
  - unfold parse_certificate. mp. apply h_entries.
  - unfold parse_certificate_request. mp. apply m_vector; kg.
  - unfold parse_certificate_verify, parse_sig_scheme. mp.
  - unfold parse_finished, pq, pb_fill. mp.
Qed.
Lemma m_read_message tr : mute (read_server_handshake C tr).
Proof. unfold read_server_handshake. apply m_bind; [mp|intros ?]. apply m_bind; [apply m_message_read|intros ?]. mp. Qed.
Lemma m_alert : mute parse_alert. Proof. unfold parse_alert, pq. mp. Qed.
Lemma h_length h : hush (hdr_content_length h). Proof. unfold hdr_content_length. hs. Qed.
Lemma h_decode h : hush (hdr_decode h). Proof. unfold hdr_decode. hs. Qed.
Lemma h_record h off data tr : hush (sr_decode C h off data tr).
Proof.
  unfold sr_decode. apply h_obind; [apply h_length|intros n]. destruct (negb _); [exact I|]. apply h_obind; [unfold hdr_content_type; hs|intros t].
  destruct t; try reflexivity; try exact I.
  - apply h_obind; [apply m_alert|intros; exact I].
  - apply h_obind; [apply m_read_message|intros; exact I].
Qed.

(** ** The key schedule and the encoders *)

Lemma h_label s n l x : hush (make_label C s n l x). Proof. unfold make_label. hs. Qed.
Lemma h_derive s l x : hush (derive_secret C s l x). Proof. apply h_label. Qed.
Lemma h_prk p : hush (from_prk C p). Proof. unfold from_prk. hs. Qed.
Lemma h_derived s : hush (shared_derived C s). Proof. unfold shared_derived. apply h_obind; [apply h_derive|]. intros; hs. Qed.
Lemma h_traffic s l tr : hush (calculate_traffic_secret C s l tr).
Proof. unfold calculate_traffic_secret. repeat (apply h_obind; [first [apply h_derive|apply h_prk|apply h_label]|intros ?]). hs. Qed.
Lemma h_traffics k a b : hush (calculate_traffic_secrets C k a b).
Proof. unfold calculate_traffic_secrets. repeat (apply h_obind; [apply h_traffic|intros ?]). hs. Qed.
Lemma h_early k p : hush (initialize_early_secret C k p).
Proof. unfold initialize_early_secret. apply h_obind; [apply h_derive|intros ?]. apply h_obind; [apply h_prk|intros ?]. apply h_obind; [apply h_derived|intros ?]. hs. Qed.
Lemma h_hsecret k i : hush (initialize_handshake_secret C k i).
Proof. unfold initialize_handshake_secret. apply h_obind; [apply h_traffics|intros ?]. apply h_obind; [apply h_derived|intros ?]. hs. Qed.
Lemma h_master k : hush (initialize_master_secret C k).
Proof. unfold initialize_master_secret. apply h_obind; [apply h_traffics|intros ?]. apply h_obind; [apply h_derived|intros ?]. hs. Qed.
Lemma h_client_finished k : hush (create_client_finished C k).
Proof. unfold create_client_finished. apply h_obind; [apply h_label|intros ?]. hs. Qed.
Lemma h_binder w tr : hush (create_psk_binder C w tr).
Proof. unfold create_psk_binder. apply h_obind; [apply h_label|intros ?]. hs. Qed.
Lemma h_verify r v h : hush (verify_server_finished C r v h).
Proof. unfold verify_server_finished. apply h_obind; [apply h_label|intros ?]. hs. Qed.
Lemma h_pad_loop n : forall l i p, hush (pad_loop n i l p).
Proof. induction l; intros i p; cbn [pad_loop]; hs. apply IHl. Qed.
Lemma h_nonce k : hush (kstate_nonce C k).
Proof. unfold kstate_nonce, ks_get_nonce, pad. apply h_obind; [apply h_pad_loop|intros ?]. hs. Qed.
Lemma h_increment k : hush (increment_counter k). Proof. unfold increment_counter. hs. Qed.

Lemma m_u8 {A} (m : W A) : mute m -> mute (with_u8_length m). Proof. intros H. unfold with_u8_length. ms. exact H. Qed.
Lemma m_u16 {A} (m : W A) : mute m -> mute (with_u16_length m). Proof. intros H. unfold with_u16_length, cb_push_u16, cb_set_u16. ms. exact H. Qed.
Lemma m_u24 {A} (m : W A) : mute m -> mute (with_u24_length m). Proof. intros H. unfold with_u24_length, cb_push_u24, cb_set_u24. ms. exact H. Qed.
Ltac mw := repeat first [progress ms|apply m_u8|apply m_u16|apply m_u24].

Lemma m_ext_data d : mute (enc_ext_data d).
Proof.
  destruct d; cbn [enc_ext_data]; unfold enc_server_name, enc_named_group, enc_key_share_entry, enc_psk_ch, enc_named_group, enc_err, cb_push_u16, cb_push_u32; mw.
Qed.
Lemma m_message h : mute (enc_client_handshake C h).
Proof.
  unfold enc_client_handshake, enc_certificate, enc_certificate_verify, enc_finished, enc_client_hello, enc_cert_entry, ext_encode, enc_err, cb_push_u16.
  mw. apply m_ext_data.
Qed.
Lemma m_binders w tr n : mute (write_binders C w tr n).
Proof. induction n; cbn [write_binders]; [apply m_ret|]. unfold enc_binder, enc_err. apply m_bind; [apply m_lift, h_binder|intros ?]. ms. exact IHn. Qed.
Lemma h_finalize h w e tr : hush (finalize_client_handshake C h w e tr).
Proof.
  destruct h; try apply h_ok. cbn [finalize_client_handshake]. unfold finalize_client_hello.
  destruct (cfg_psk (ch_config h)) as [[k ids]|]; [|apply h_ok]. do 4 (apply h_obind; [hs|intros ?]).
  pose proof (m_binders w (tr ++ a1) (length ids) (cb_wrap a2)) as H.
  destruct (write_binders C w (tr ++ a1) (length ids) (cb_wrap a2)) as [o c]. cbn [fst] in H. destruct o; try exact I; [hs| |]; exact H.
Qed.
Lemma m_finish r w tr : mute (wb_finish_payload C r w tr).
Proof.
  unfold wb_finish_payload. apply m_bind; [ms|intros ?]. apply m_bind; [ms|intros ?]. apply m_bind.
  - apply m_lift. destruct r as [h [|]|]; cbn [cr_finish]; [apply h_ok|apply h_finalize|apply h_ok].
  - intros [p t]. ms.
Qed.
Lemma m_payload r : mute (cr_encode_payload C r).
Proof. destruct r; cbn [cr_encode_payload]; [apply m_message|]. unfold enc_alert, enc_err. ms. Qed.
Lemma m_with_buffer {A} (m : W A) : mute m -> mute (with_buffer m).
Proof.
  intros H w. unfold with_buffer. specialize (H (cb_wrap_with_pos (wb_buf w) (wb_pos w))). destruct (m _) as [o c]. cbn [fst] in H.
  destruct o; try exact I; exact H.
Qed.
Lemma m_encrypt k : mute (encrypt C k).
Proof.
  unfold encrypt. apply m_bind; [apply m_lift, h_nonce|intros ?]. apply m_bind; [ms|intros c]. destruct (_ <? _); [ms|].
  apply m_bind; [ms|intros ?]. destruct (c_seal _ _ _ _ _). ms.
Qed.
Lemma m_close_record k : mute (wb_close_record C k).
Proof.
  unfold wb_close_record. apply m_bind; [ms|intros ?]. apply m_bind; [ms|intros ?]. apply m_bind; [unfold wb_set_hdr; ms|intros ?].
  apply m_bind; [|intros ?; ms]. apply m_with_buffer. destruct (negb _); [ms|]. unfold enc_err. ms. apply m_encrypt.
Qed.
Lemma m_start_record h : mute (wb_start_record h).
Proof.
  unfold wb_start_record. apply m_bind; [ms|intros ?]. destruct (wb_hdr a); [ms|]. apply m_bind; [unfold wb_set_hdr; ms|intros ?].
  apply m_with_buffer. unfold rh_encode, enc_err, cb_push_u16. ms.
Qed.
Lemma m_write_record r w tr : mute (wb_write_record C r w tr).
Proof.
  unfold wb_write_record. apply m_bind; [ms|intros b]. destruct (wb_hdr b); [ms|].
  apply m_bind; [apply m_start_record|intros ?; apply m_bind; [|intros ?; apply m_bind; [apply m_close_record|intros ?; ms]]].
  apply m_with_buffer. apply m_bind; [ms|intros ?]. apply m_bind; [apply m_payload|intros ?]. apply m_bind; [apply m_finish|intros ?]. ms.
Qed.
Lemma m_decrypt key nonce ad : mute (decrypt_in_place C key nonce ad).
Proof. unfold decrypt_in_place. apply m_bind; [ms|intros c]. apply m_bind; [ms|intros s]. destruct (_ <? _); [ms|]. cbv zeta. destruct (c_open _ _ _ _ _ _); ms. Qed.
Lemma m_strip : mute strip_content_type.
Proof. unfold strip_content_type. apply m_bind; [ms|intros c]. apply m_bind; [ms|intros s]. apply m_bind; [ms|intros _]. apply m_bind; [ms|intros c1]. ms. Qed.


End Terms.

(** ** Code that uses the transport *)

Definition line : Type := list rx_event * list wr_answer * list fl_answer.
Definition l_faults (l : line) : ahead := faults_of (fst (fst l)) (snd (fst l)) (snd l).
Definition rep {S A} (io : S -> line) (m : M S tls_error A) : Prop :=
  forall s, truthful (fst (m s)) (l_faults (io s)) (l_faults (io (snd (m s)))) (fst (fst (io (snd (m s))))).

Lemma r_bind {S A B} (io : S -> line) (m : M S tls_error A) (f : A -> M S tls_error B) :
  rep io m -> (forall a, rep io (f a)) -> rep io (bind m f).
Proof.
  intros H1 H2 s. unfold bind. specialize (H1 s). destruct (m s) as [o s1]. cbn [fst snd] in H1.
  destruct o as [a|e|x| |]; try exact H1. cbn [truthful] in H1. rewrite H1. apply H2.
Qed.
Lemma r_bind_post {S A B} (io : S -> line) (P : A -> Prop) (m : M S tls_error A) (f : A -> M S tls_error B) :
  rep io m -> (forall s a s', m s = (Ok a, s') -> P a) -> (forall a, P a -> rep io (f a)) -> rep io (bind m f).
Proof.
  intros H1 HP H2 s. unfold bind. specialize (H1 s). destruct (m s) as [o s1] eqn:E. cbn [fst snd] in H1.
  destruct o as [a|e|x| |]; try exact H1. cbn [truthful] in H1. rewrite H1. apply H2. now apply (HP s a s1).
Qed.
Lemma r_mute {S A} (io : S -> line) (m : M S tls_error A) : mute m -> (forall s, io (snd (m s)) = io s) -> rep io m.
Proof.
  intros H1 H2 s. rewrite H2. specialize (H1 s). destruct (fst (m s)) as [a|e|x| |]; try reflexivity; [|contradiction].
  destruct e; try reflexivity; discriminate.
Qed.
Lemma r_ret {S A} (io : S -> line) (a : A) : rep io (ret a). Proof. now apply r_mute; [apply m_ret|]. Qed.
Lemma r_get {S} (io : S -> line) : rep io get. Proof. now apply r_mute; [apply m_get|]. Qed.
Lemma r_fail {S A} (io : S -> line) e : noisy e = false -> rep io (fail e : M S tls_error A). Proof. intros H. apply r_mute; [now apply m_fail|reflexivity]. Qed.
Lemma r_panic {S A} (io : S -> line) x : rep io (panic x : M S tls_error A). Proof. apply r_mute; [apply m_panic|reflexivity]. Qed.
Lemma r_lift {S A} (io : S -> line) (o : outcome tls_error A) : hush o -> rep io (lift o : M S tls_error A).
Proof. intros H. apply r_mute; [now apply m_lift|reflexivity]. Qed.
Lemma r_modify {S} (io : S -> line) f : (forall s, io (f s) = io s) -> rep io (modify f). Proof. intros H. apply r_mute; [apply m_modify|exact H]. Qed.

(** ** Receiving *)

Definition io_rx wr fl (rx : list rx_event) : line := (rx, wr, fl).
Definition io_rd wr fl (s : rdst) : line := (rd_rx s, wr, fl).
Section Reading.
Context (wr : list wr_answer) (fl : list fl_answer).

Lemma r_read_some n : 0 < n -> rep (io_rx wr fl) (rx_read_some n).
Proof.
  intros Hn rx. unfold rx_read_some, bind, map_err, rx_read. destruct rx as [|[b|k|] r]; cbn [omap_err length Nat.eqb].
  - right. split; reflexivity.
  - destruct b as [|x b].
    + rewrite firstn_nil, skipn_nil. cbn [length Nat.eqb]. left. left. reflexivity.
    + destruct n as [|n]; [lia|]. cbn [firstn skipn length Nat.eqb]. cbn [fst snd ret truthful]. unfold l_faults, io_rx. cbn [fst snd].
      destruct (skipn n b); reflexivity.
  - left. reflexivity.
  - left. reflexivity.
Qed.
Lemma r_header : forall fuel acc, length acc <= HEADER_LEN -> rep (io_rx wr fl) (header_loop fuel acc).
Proof.
  induction fuel as [|f IH]; intros acc Ha; cbn [header_loop]; destruct (length acc =? HEADER_LEN) eqn:E; try apply r_ret.
  - apply r_lift. exact I.
  - intros s. assert (Hk : HEADER_LEN - length acc + length acc = HEADER_LEN) by lia. assert (Hn : 0 < HEADER_LEN - length acc) by lia.
    set (k := HEADER_LEN - length acc) in *. clearbody k. pose proof (r_read_some _ Hn s) as H. unfold bind. destruct (rx_read_some k s) as [o s1] eqn:Er. cbn [fst snd] in H.
    destruct o as [a|e|x| |]; try exact H. cbn [truthful] in H. rewrite H. apply IH.
    unfold rx_read_some, bind, map_err, rx_read in Er. destruct s as [|[b|x|] r]; cbn [omap_err length Nat.eqb] in Er; try discriminate.
    destruct (length (firstn k b) =? 0); [discriminate|]. apply pair_equal_spec in Er as [Er _]. injection Er as <-.
    rewrite app_length, firstn_length. lia.
Qed.
Lemma r_next : rep (io_rx wr fl) next_record_header.
Proof. unfold next_record_header. apply r_bind; [apply r_header; cbn; unfold HEADER_LEN; lia|intros h]. apply r_lift, h_decode. Qed.
Lemma r_on_rx {A} (m : M (list rx_event) tls_error A) : rep (io_rx wr fl) m -> rep (io_rd wr fl) (on_rx m).
Proof. intros H s. unfold on_rx. specialize (H (rd_rx s)). destruct (m (rd_rx s)) as [o rx]. exact H. Qed.
Lemma r_contiguous n : rep (io_rd wr fl) (ensure_contiguous n).
Proof.
  intros s. unfold ensure_contiguous, bind, get. destruct (_ <? _); [|reflexivity]. destruct (_ <? _); [reflexivity|].
  unfold lift, slice_rng. destruct (_ && _); reflexivity.
Qed.
Definition said {A} (s : rdst) (r : outcome tls_error A * rdst) : Prop :=
  truthful (fst r) (l_faults (io_rd wr fl s)) (l_faults (io_rd wr fl (snd r))) (rd_rx (snd r)).
Lemma said_other {A} s t (r : outcome tls_error A * rdst) : l_faults (io_rd wr fl s) = l_faults (io_rd wr fl t) -> said t r -> said s r.
Proof. unfold said. now intros ->. Qed.
Lemma r_advance_loop : forall fuel amount remain s, amount <= rd_pending s + remain -> said s (advance_loop fuel amount remain s).
Proof.
  induction fuel as [|f IH]; intros amount remain s Hr; cbn [advance_loop]; unfold bind at 1, get at 1; destruct (amount <=? rd_pending s) eqn:E; try reflexivity.
  unfold bind at 1, lift at 1. unfold slice_from. unfold slice_rng at 1. destruct (_ && _); [|reflexivity].
  generalize (sub (rd_buf s) (rd_decoded s + rd_pending s) (length (rd_buf s) - (rd_decoded s + rd_pending s))) as tail. intros tail.
  unfold bind at 1, lift at 1. unfold slice_rng at 1. destruct ((0 <=? remain) && (remain <=? length tail)) eqn:El; [|reflexivity].
  assert (Hl : length (sub tail 0 (remain - 0)) = remain) by (unfold sub; rewrite firstn_length; cbn [skipn]; lia).
  rewrite Hl. unfold bind at 1. assert (Hn : 0 < remain) by lia. pose proof (r_on_rx _ (r_read_some _ Hn) s) as H.
  destruct (on_rx (rx_read_some remain) s) as [o s1] eqn:Eo. cbn [fst snd] in H.
  destruct o as [got|e|x| |]; try exact H. cbn [truthful] in H. apply (said_other _ _ _ H).
  assert (Hg : length got <= remain /\ rd_pending s1 = rd_pending s).
  { unfold on_rx, rx_read_some, bind, map_err, rx_read in Eo. destruct (rd_rx s) as [|[b|k|] r]; cbn [omap_err length Nat.eqb] in Eo; try discriminate.
    destruct (length (firstn remain b) =? 0); [discriminate|]. apply pair_equal_spec in Eo as [Eo <-]. injection Eo as <-. split; [rewrite firstn_length; lia|reflexivity]. }
  destruct Hg as [Hg Hp]. unfold bind at 1, lift at 1, usize_sub. destruct (length got <=? remain) eqn:Eg; [|reflexivity].
  unfold bind at 1, get at 1. unfold bind at 1, lift at 1. unfold set_rng.
  destruct (_ <=? length (rd_buf s1)); [|reflexivity]. unfold bind at 1, put at 1.
  match goal with |- context [advance_loop f amount ?r ?t] => specialize (IH amount r t) end. cbn [rd_pending] in IH.
  apply IH. lia.
Qed.
Lemma r_advance n : rep (io_rd wr fl) (advance n).
Proof. unfold advance. apply r_bind; [apply r_contiguous|intros _]. intros s. apply r_advance_loop. lia. Qed.
Lemma r_consume C h : rep (io_rd wr fl) (consume_record C h).
Proof.
  apply r_mute.
  - unfold consume_record. apply m_bind; [apply m_lift, h_length|intros n]. apply m_bind; [apply m_get|intros s]. do 3 (apply m_bind; [apply m_lift; hs|intros ?]).
    apply m_bind; [apply m_put|intros _]. apply m_bind; [apply m_lift, h_record|intros rt]. apply m_bind; [apply m_modify|intros _]. apply m_ret.
  - intros s. unfold consume_record, bind, lift, get, put, modify, ret.
    destruct (hdr_content_length h); try reflexivity. destruct (slice_from _ _); try reflexivity. destruct (slice_rng _ _ _); try reflexivity.
    destruct (usize_sub _ _); try reflexivity. destruct (sr_decode _ _ _ _ _); reflexivity.
Qed.
Lemma r_rd_read C : rep (io_rd wr fl) (rd_read C).
Proof.
  unfold rd_read. apply r_bind; [apply r_on_rx, r_next|intros h]. apply r_bind; [apply r_lift, h_length|intros n].
  apply r_bind; [apply r_advance|intros _]. apply r_consume.
Qed.

(** Decryption calls back into code that does not use the transport. *)
Section Record.
Context {S : Type} (C : crypto) (cb : rks -> server_record -> M S tls_error unit) (Hcb : forall k r, mute (cb k r)).
Definition io_st (st : rdst * S) : line := io_rd wr fl (fst st).
Lemma r_cb r : rep io_st (call_cb cb r).
Proof.
  intros st. unfold call_cb. pose proof (Hcb (rd_ks (fst st)) r (snd st)) as H. destruct (cb (rd_ks (fst st)) r (snd st)) as [o s']. cbn [fst snd io_st] in *.
  destruct o as [a|e|x| |]; try reflexivity; [|contradiction]. destruct e; try reflexivity; discriminate.
Qed.
Lemma r_fst {A} (m : M rdst tls_error A) : rep (io_rd wr fl) m -> rep io_st (on_fst m).
Proof. intros H st. unfold on_fst. specialize (H (fst st)). destruct (m (fst st)). exact H. Qed.
Lemma r_increment : rep (io_rd wr fl) rd_increment.
Proof.
  intros s. unfold rd_increment, bind, get, lift. unfold increment_counter. destruct (_ <? _)%N; reflexivity.
Qed.
Lemma r_set_tr tr : rep (io_rd wr fl) (set_transcript tr).
Proof. apply r_modify. reflexivity. Qed.
Lemma r_messages : forall fuel p, rep io_st (handshake_loop C cb fuel p).
Proof.
  induction fuel as [|f IH]; intros p; cbn [handshake_loop].
  - apply r_bind; [apply r_lift; hs|intros r]. destruct (r =? 0); [apply r_ret|apply r_lift; exact I].
  - apply r_bind; [apply r_lift; hs|intros r]. destruct (r =? 0); [apply r_ret|]. apply r_bind; [apply r_get|intros st].
    pose proof (m_read_message C (r_transcript (rd_ks (fst st))) p) as H. destruct (read_server_handshake C _ p) as [o p'].
    apply r_bind; [apply r_lift; exact H|intros ht]. apply r_bind; [apply r_fst, r_set_tr|intros _]. apply r_bind; [apply r_cb|intros _]. apply IH.
Qed.
Lemma r_decrypt rec : rep io_st (decrypt_record C cb rec).
Proof.
  destruct rec as [h| |l d|h off data]; cbn [decrypt_record]; try apply r_cb.
  apply r_bind; [apply r_get|intros st]. cbv zeta. apply r_bind; [apply r_lift, h_nonce|intros nonce].
  pose proof (m_decrypt C (k_key (r_state (rd_ks (fst st)))) nonce h data) as H. destruct (decrypt_in_place C _ nonce h data) as [o data1].
  apply r_bind; [apply r_lift; exact H|intros _]. apply r_bind.
  { apply r_fst. intros s. unfold bind, get, lift, set_rng. destruct (_ <=? _); reflexivity. }
  intros _. pose proof (m_strip data1) as H2. destruct (strip_content_type data1) as [o2 data2]. apply r_bind; [apply r_lift; exact H2|intros t].
  apply r_bind; [apply r_lift; hs|intros inner]. apply r_bind; [|intros _; apply r_fst, r_increment].
  destruct t; try (apply r_fail; reflexivity).
  - apply r_bind; [apply r_lift, m_alert|intros ld]. apply r_cb.
  - apply r_messages.
  - apply r_cb.
Qed.
End Record.
End Reading.

(** ** Sending *)

Definition io_wh rx (w : whalf) : line := (rx, tx_wr (wh_tx w), tx_fl (wh_tx w)).
Section Writing.
Context (rx : list rx_event).
Lemma r_on_wb {A} (m : M wbuf tls_error A) : mute m -> rep (io_wh rx) (on_wb m).
Proof.
  intros H. apply r_mute.
  - intros w. unfold on_wb. specialize (H (wh_wb w)). destruct (m (wh_wb w)). exact H.
  - intros w. unfold on_wb. destruct (m (wh_wb w)). reflexivity.
Qed.
Lemma r_write_all bs : rep (io_wh rx) (on_tx (tx_write_all bs)).
Proof.
  intros w. unfold on_tx, tx_write_all. destruct (tx_wr (wh_tx w)) as [|[|n k|n] r] eqn:E; unfold l_faults, io_wh, faults_of; cbn [fst snd omap_err truthful tx_wr tx_fl wh_tx]; rewrite E;
    try reflexivity; right; left; reflexivity.
Qed.
Lemma r_flush_tx : rep (io_wh rx) (on_tx tx_flush).
Proof.
  intros w. unfold on_tx, tx_flush. destruct (tx_fl (wh_tx w)) as [|[|k|] r] eqn:E; unfold l_faults, io_wh, faults_of; cbn [fst snd omap_err truthful tx_wr tx_fl wh_tx]; rewrite E;
    try reflexivity; right; right; reflexivity.
Qed.
Lemma r_wh_increment : rep (io_wh rx) wh_increment.
Proof. intros w. unfold wh_increment, bind, get, lift, increment_counter. destruct (_ <? _)%N; reflexivity. Qed.
Lemma r_respond b : rep (io_wh rx) (respond b).
Proof. unfold respond. apply r_bind; [apply r_write_all|intros _]. apply r_bind; [apply r_wh_increment|intros _]. apply r_flush_tx. Qed.
Lemma r_flush C : rep (io_wh rx) (wh_flush C).
Proof.
  unfold wh_flush. apply r_bind; [apply r_get|intros w]. destruct (wb_is_empty _); [apply r_ret|].
  apply r_bind; [apply r_on_wb, m_close_record|intros s]. apply r_bind; [apply r_write_all|intros _]. apply r_bind; [apply r_wh_increment|intros _].
  destruct (policy_flush_transport _); [apply r_flush_tx|apply r_ret].
Qed.
Lemma r_write C opened buf : rep (io_wh rx) (wh_write C opened buf).
Proof.
  unfold wh_write. destruct opened; [|apply r_fail; reflexivity]. apply r_bind; [apply r_get|intros w]. apply r_bind.
  { destruct (wb_contains _ _); [apply r_ret|]. apply r_bind; [apply r_flush|intros _]. apply r_on_wb, m_start_record. }
  intros _. apply r_bind; [apply r_get|intros w1]. apply r_bind; [apply r_lift; unfold wb_append, wb_space, wb_max_block; hs|intros nb].
  apply r_bind; [apply r_on_wb, m_put|intros _]. apply r_bind; [apply r_lift; unfold wb_is_full, wb_max_block; hs|intros full].
  apply r_bind; [destruct full; [apply r_flush|apply r_ret]|intros _]. apply r_ret.
Qed.
End Writing.

(** ** The connection *)

Definition io_cn (c : conn) : line := (rd_rx (cn_rd c), tx_wr (wh_tx (cn_wh c)), tx_fl (wh_tx (cn_wh c))).
Lemma r_wh {A} (m : M whalf tls_error A) : (forall rx, rep (io_wh rx) m) -> rep io_cn (on_wh m).
Proof. intros H c. unfold on_wh. specialize (H (rd_rx (cn_rd c)) (cn_wh c)). destruct (m (cn_wh c)). exact H. Qed.
Lemma r_rd {A} (m : M rdst tls_error A) : (forall wr fl, rep (io_rd wr fl) m) -> rep io_cn (on_rd m).
Proof. intros H c. unfold on_rd. specialize (H (tx_wr (wh_tx (cn_wh c))) (tx_fl (wh_tx (cn_wh c))) (cn_rd c)). destruct (m (cn_rd c)). exact H. Qed.
Lemma r_rh {A} (m : M rhalf tls_error A) : (forall wr fl, rep (io_st wr fl) m) -> rep io_cn (on_rh m).
Proof.
  intros H c. unfold on_rh. specialize (H (tx_wr (wh_tx (cn_wh c))) (tx_fl (wh_tx (cn_wh c))) (cn_rd c, (cn_dec c, cn_opened c))).
  destruct (m (cn_rd c, (cn_dec c, cn_opened c))) as [o [r [d op]]]. exact H.
Qed.
Lemma r_ks f : (forall k, hush (f k)) -> rep io_cn (on_ks f).
Proof.
  intros H. apply r_mute.
  - intros c. unfold on_ks. specialize (H (cn_keysched c)). destruct (f _); exact H.
  - intros c. unfold on_ks. destruct (f _); reflexivity.
Qed.
Lemma r_cn_write_record C r : rep io_cn (cn_write_record C r).
Proof.
  unfold cn_write_record. apply r_bind; [apply r_get|intros c]. apply r_bind; [apply r_wh; intros rx; apply r_on_wb, m_write_record|intros st].
  apply r_bind; [apply r_rd; intros wr fl; apply r_set_tr|intros _]. apply r_ret.
Qed.
Lemma r_close C : rep io_cn (cn_close C).
Proof.
  unfold cn_close, cn_flush. apply r_bind; [apply r_wh; intros rx; apply r_flush|intros _]. apply r_bind; [apply r_get|intros c].
  apply r_bind; [apply r_cn_write_record|intros s]. apply r_bind; [apply r_wh; intros rx; apply r_write_all|intros _].
  apply r_bind; [apply r_wh; intros rx; apply r_wh_increment|intros _]. apply r_wh; intros rx; apply r_flush_tx.
Qed.
Lemma m_handler n k rec : mute (read_handler n k rec).
Proof.
  destruct rec as [h| |l d|h off data]; cbn [read_handler]; try (destruct h; ms; fail); try (ms; fail); try (destruct d; ms; fail).
Qed.
Section Halves.
Context (C : crypto) (wr : list wr_answer) (fl : list fl_answer).
Notation ior := (io_st (S := dec_info * bool) wr fl).
Lemma r_app_data : rep ior (read_application_data C).
Proof. unfold read_application_data. apply r_bind; [apply r_fst, r_rd_read|intros rec]. apply r_bind; [apply r_get|intros st]. apply r_decrypt. intros k r. apply m_handler. Qed.
Lemma r_fill : forall fuel, rep ior (fill_loop C fuel).
Proof.
  induction fuel as [|f IH]; cbn [fill_loop]; (apply r_bind; [apply r_get|intros st]); (apply r_bind; [apply r_lift; unfold dec_is_empty, dec_remaining; hs|intros e]);
    destruct (negb e); try apply r_ret; [apply r_lift; exact I|]. apply r_bind; [apply r_app_data|intros _]. exact IH.
Qed.
Lemma r_buffered : rep ior (rh_read_buffered C).
Proof.
  unfold rh_read_buffered. apply r_bind; [apply r_get|intros [s [d opened]]]. destruct opened; [|apply r_fail; reflexivity].
  apply r_bind; [apply r_fill|intros _]. apply r_bind; [apply r_get|intros st']. apply r_lift. unfold create_read_buffer. hs.
Qed.
Lemma r_set_dec d : rep ior (rh_set_dec d). Proof. apply r_modify. reflexivity. Qed.
Lemma r_drop r : rep ior (rh_drop r). Proof. unfold rh_drop. apply r_bind; [apply r_get|intros st]. apply r_set_dec. Qed.
Lemma h_pop n r : hush (rb_pop n r). Proof. unfold rb_pop, rb_len. hs. Qed.
Lemma h_peek n r : hush (rb_peek n r). Proof. unfold rb_peek, rb_len. hs. Qed.
Lemma h_pop_into b r : hush (rb_pop_into b r). Proof. unfold rb_pop_into. apply h_obind; [apply h_pop|intros p]. hs. Qed.
Lemma h_rb_step o r : hush (rb_step o r).
Proof.
  destruct o; cbn [rb_step]; unfold rb_peek_all, rb_pop_all, rb_len; try apply h_peek; try apply h_pop.
  - apply h_obind; [hs|intros ?; apply h_peek].
  - apply h_obind; [hs|intros ?; apply h_pop].
  - apply h_obind; [apply h_pop_into|intros [[b m] r']; exact I].
Qed.
Lemma h_rb_run : forall ops r, hush (rb_run ops r).
Proof. induction ops as [|o ops IH]; intros r; cbn [rb_run]; [exact I|]. apply h_obind; [apply h_rb_step|intros p]. apply h_obind; [apply IH|intros q]. exact I. Qed.
Lemma r_read buf : rep ior (rh_read C buf).
Proof.
  unfold rh_read. destruct (_ =? 0); [apply r_ret|]. apply r_bind; [apply r_buffered|intros r]. apply r_bind; [apply r_lift, h_pop_into|intros bnr].
  apply r_bind; [apply r_drop|intros _]. apply r_ret.
Qed.
Lemma r_fill_buf : rep ior (rh_fill_buf C).
Proof.
  unfold rh_fill_buf. apply r_bind; [apply r_buffered|intros r]. apply r_bind; [apply r_lift; unfold rb_peek_all, rb_len; apply h_obind; [hs|intros; apply h_peek]|intros sr].
  apply r_bind; [apply r_drop|intros _]. apply r_ret.
Qed.
Lemma r_consume_op n : rep ior (rh_consume n).
Proof.
  unfold rh_consume. apply r_bind; [apply r_get|intros st]. apply r_bind; [apply r_lift; unfold create_read_buffer; hs|intros r].
  apply r_bind; [apply r_lift, h_pop|intros sr]. apply r_drop.
Qed.
Lemma r_with_buffer ops fin : rep ior (rh_with_buffer C ops fin).
Proof.
  unfold rh_with_buffer. apply r_bind; [apply r_buffered|intros r]. apply r_bind; [apply r_lift, h_rb_run|intros p].
  apply r_bind; [|intros _; apply r_ret]. destruct fin; [apply r_drop|]. apply r_bind; [apply r_get|intros st]. apply r_set_dec.
Qed.
End Halves.

Lemma r_step C o : rep io_cn (step C o).
Proof.
  destruct o; cbn [step].
  - apply r_bind; [|intros n; apply r_ret]. unfold cn_write. apply r_bind; [apply r_get|intros c]. apply r_wh. intros rx. apply r_write.
  - apply r_bind; [|intros n; apply r_ret]. apply r_wh. intros rx. apply r_flush.
  - apply r_bind; [|intros n; apply r_ret]. apply r_wh. intros rx. apply r_modify. reflexivity.
  - apply r_bind; [|intros n; apply r_ret]. apply r_rh. intros wr fl. apply r_read.
  - apply r_bind; [|intros n; apply r_ret]. apply r_rh. intros wr fl. apply r_fill_buf.
  - apply r_bind; [|intros n0; apply r_ret]. apply r_rh. intros wr fl. apply r_consume_op.
  - apply r_bind; [|intros n; apply r_ret]. apply r_rh. intros wr fl. apply r_with_buffer.
  - apply r_bind; [|intros n; apply r_ret]. apply r_close.
Qed.

(** ** The handshake *)

Section Open.
Context {V : Type} (C : crypto) (p : provider V) (cfg : tls_config) (Hp : provider_no_io p).
Notation Hm A := (M (conn * @hs_data V) tls_error A).
Definition io_h (st : conn * @hs_data V) : line := io_cn (fst st).

Lemma r_conn {A} (m : M conn tls_error A) : rep io_cn m -> rep io_h (on_conn m).
Proof. intros H st. unfold on_conn. specialize (H (fst st)). destruct (m (fst st)). exact H. Qed.
Lemma r_mod f : rep io_h (mod_hs f). Proof. apply r_modify. reflexivity. Qed.
Lemma r_reply b : rep io_h (on_conn (on_wh (respond b))).
Proof. apply r_conn, r_wh. intros rx. apply r_respond. Qed.
Lemma m_verify_cb k rec : mute (server_verify_cb C p k rec).
Proof.
  destruct Hp as (_ & Hc & Hs & _).
  assert (Hv : forall A (m : M V tls_error A), (forall v, no_io (fst (m v))) -> mute (on_v m)).
  { intros A m H [s h]. unfold on_v. cbn [fst snd]. specialize (H (hs_v h)). destruct (m (hs_v h)) as [o v]. now apply hush_no_io. }
  destruct rec as [[e| | |ce|ctx|v|f]| |l d|hd off data]; cbn [server_verify_cb]; try (ms; fail).
  - destruct (p_has_verifier p); [apply Hv, Hc|ms].
  - apply m_bind; [apply m_lift; unfold cert_request_try_from; hs|intros r]. unfold mod_sv. ms.
  - destruct (p_has_verifier p); [apply Hv, Hs|ms].
  - apply m_bind; [apply m_lift, h_verify|intros ok]. destruct (negb ok); [ms|]. apply m_bind; [apply m_get|intros st]. unfold set_sv, mod_sv. ms.
Qed.
Lemma r_psh rec : rep io_h (process_server_hello C rec).
Proof.
  destruct rec as [[e| | |ce|ctx|v|f]| |l d|hd off data]; cbn [process_server_hello]; try (apply r_fail; reflexivity).
  apply r_bind; [apply r_get|intros st]. apply r_bind; [apply r_mod|intros ?]. do 2 (apply r_bind; [apply r_lift; hs|intros ?]).
  apply r_bind; [apply r_conn, r_ks; intros; apply h_hsecret|intros ?]. apply r_ret.
Qed.
Lemma r_psv rec : rep io_h (process_server_verify C p rec).
Proof.
  intros [c h]. unfold process_server_verify.
  pose proof (r_decrypt (tx_wr (wh_tx (cn_wh c))) (tx_fl (wh_tx (cn_wh c))) C (server_verify_cb C p) m_verify_cb rec (cn_rd c, (St_ServerVerify, h))) as H.
  destruct (decrypt_record C _ rec (cn_rd c, (St_ServerVerify, h))) as [o [r [s h']]]. cbn [fst snd] in H. unfold io_h, io_cn. cbn [fst snd cn_rd cn_wh].
  destruct o; exact H.
Qed.
Lemma r_attempt_abort (m : Hm hs_state) : rep io_h m -> rep io_h (handle_processing_error C m).
Proof.
  intros H st. specialize (H st).
  assert (E : handle_processing_error C m st = match m st with
    | (Err (AbortHandshake l d), st1) => (tx <- on_conn (cn_write_record C (CR_Alert l d false)) ;; on_conn (on_wh (respond tx)) ;;; fail (AbortHandshake l d)) st1
    | r => r end).
  { unfold handle_processing_error, bind, attempt. destruct (m st) as [[a|e|x| |] st1]; try reflexivity. destruct e; reflexivity. }
  rewrite E. destruct (m st) as [[a|e|x| |] st1]; try exact H. destruct e; try exact H.
  cbn [fst snd truthful] in H. rewrite H.
  assert (R : rep io_h (tx <- on_conn (cn_write_record C (CR_Alert l d false)) ;; on_conn (on_wh (respond tx)) ;;; fail (AbortHandshake l d : tls_error) : Hm hs_state)).
  { apply r_bind; [apply r_conn, r_cn_write_record|intros tx]. apply r_bind; [apply r_reply|intros _]. apply r_fail. reflexivity. }
  apply R.
Qed.
Lemma r_process s : rep io_h (process C p cfg s).
Proof.
  destruct Hp as (_ & _ & _ & Hsg). destruct s; cbn [process].
  - apply r_bind; [|intros tx; apply r_bind; [apply r_reply|intros ?; apply r_ret]].
    unfold do_client_hello. apply r_bind; [apply r_conn, r_ks; intros; apply h_early|intros ?]. cbv zeta.
    apply r_bind; [apply r_conn, r_cn_write_record|intros ?]. apply r_bind; [apply r_mod|intros ?]. apply r_ret.
  - apply r_bind; [apply r_conn, r_rd; intros wr fl; apply r_rd_read|intros rec]. apply r_attempt_abort, r_psh.
  - apply r_bind; [apply r_conn, r_rd; intros wr fl; apply r_rd_read|intros rec]. apply r_attempt_abort, r_psv.
  - apply r_bind; [|intros nt; apply r_bind; [apply r_reply|intros ?; apply r_ret]].
    unfold do_client_cert. apply r_bind; [apply r_get|intros st0]. apply r_bind; [apply r_mod|intros ?].
    apply r_bind; [apply r_lift; hs|intros ctx]. destruct (p_client_cert p); (apply r_bind; [apply r_conn, r_cn_write_record|intros ?; apply r_ret]).
  - apply (r_bind_post io_h (fun rt => match fst rt with inl _ => True | inr e => noisy e = false end)).
    + unfold do_client_cert_verify. apply r_bind; [apply r_get|intros st]. destruct (p_signer p) as [[sign scheme]|e|x| |];
        [|apply r_bind; [apply r_conn, r_cn_write_record|intros tx; apply r_ret]|apply r_panic|apply r_lift; exact I|contradiction].
      apply r_bind; [apply r_lift; unfold cv_client_message; cbv zeta; hs|intros m]. destruct (sign m); [|apply r_panic]. destruct (_ <? _); [apply r_panic|].
      apply r_bind; [apply r_conn, r_cn_write_record|intros tx]. apply r_ret.
    + intros st [r tx] st' E. unfold do_client_cert_verify in E. apply bind_ok in E as (st0 & s0 & _ & E).
      destruct (p_signer p) as [[sign scheme]|e|x| |]; try discriminate E.
      * apply bind_ok in E as (m & s1 & _ & E). destruct (sign m); [|discriminate E]. destruct (_ <? _); [discriminate E|].
        apply bind_ok in E as (w & s2 & _ & E). apply pair_equal_spec in E as [E _]. injection E as <- _. exact I.
      * apply bind_ok in E as (w & s2 & _ & E). apply pair_equal_spec in E as [E _]. injection E as <- _. now apply hush_no_io in Hsg.
    + intros [[s'|e] tx] Hr; (apply r_bind; [apply r_reply|intros _]); [apply r_ret|apply r_fail, Hr].
  - apply r_bind; [|intros tx; apply r_bind; [apply r_reply|intros ?]].
    + unfold do_client_finished. apply r_bind; [apply r_get|intros st0]. apply r_bind; [apply r_lift, h_omap_err; [apply h_client_finished|reflexivity]|intros v].
      apply r_conn, r_cn_write_record.
    + unfold client_finished_finalize. apply r_bind; [apply r_get|intros st0]. apply r_bind; [apply r_mod|intros ?].
      apply r_bind; [apply r_lift; hs|intros tr]. apply r_bind; [apply r_conn, r_rd; intros; apply r_set_tr|intros ?].
      apply r_bind; [apply r_conn, r_ks; intros; apply h_master|intros ?]. apply r_ret.
  - apply r_ret.
Qed.
Lemma r_loop : forall fuel s, rep io_h (open_loop C p cfg fuel s).
Proof.
  induction fuel as [|f IH]; intros s; destruct s; cbn [open_loop]; try apply r_ret; try (apply r_lift; exact I); (apply r_bind; [apply r_process|intros s'; apply IH]).
Qed.
Lemma r_open v : rep io_cn (cn_open C p cfg v).
Proof.
  intros c. unfold cn_open. pose proof Hp as (Hh & _).
  destruct (match p_has_verifier p, cfg_server_name cfg with true, Some n => p_set_hostname p n v | _, _ => (Ok tt, v) end) as [o0 v'] eqn:E0.
  assert (H0 : hush o0).
  { destruct (p_has_verifier p), (cfg_server_name cfg) as [n|]; try (apply pair_equal_spec in E0 as [<- _]; exact I).
    apply hush_no_io. specialize (Hh n v). rewrite E0 in Hh. exact Hh. }
  match goal with |- context [bind (lift o0) ?k ?st] => assert (R : rep io_h (bind (lift o0) k)); [apply r_bind; [apply r_lift, H0|intros ?; apply r_loop]|]; specialize (R st);
    destruct (bind (lift o0) k st) as [o [c' h']] end.
  cbn [fst snd] in R. destruct o; exact R.
Qed.
End Open.
