(** * A connection that has been used: what every call leaves behind for a later [open] *)
From Coq Require Import String List NArith Arith Bool Lia ZArith.
From Coq.Strings Require Import Byte.
From Coq Require Import ZifyBool ZifyNat ZifyN.
From Verif Require Import Base ParseBuffer Buffer Codes Extensions Crypto KeySchedule Config Handshake Record WriteBuffer
  Transport RecordReader ReadBuffer Connection Api BaseProofs ParseProofs SpecWire SpecKeys SpecRecord SpecRead
  KeyProofs RecordProofs SpecSend SendProofs SpecHello HsWrite HsProofs ConnProofs FrameProofs DecryptProofs FlagProofs ReadProofs
  HelloProofs RecvProofs SpecHandshake FlightProofs.
Import ListNotations.
Local Open Scope list_scope.

(** ** Invariants of any outcome *)

Section Kept.
Context {S : Type} (I : S -> Prop).
Definition kept {A} (m : M S tls_error A) : Prop := forall st, I st -> I (snd (m st)).

Lemma kp_same {A} (m : M S tls_error A) : (forall st, snd (m st) = st) -> kept m.
Proof. intros H st Hi. now rewrite H. Qed.
Lemma kp_bind {A B} (m : M S tls_error A) (f : A -> M S tls_error B) : kept m -> (forall a, kept (f a)) -> kept (bind m f).
Proof.
  intros Hm Hf st Hi. specialize (Hm st Hi). unfold bind. destruct (m st) as [[a|e|x| |] st']; cbn [snd] in *; auto. now apply Hf.
Qed.
Lemma kp_get {B} (f : S -> M S tls_error B) : (forall s, I s -> kept (f s)) -> kept (bind get f).
Proof. intros H st Hi. exact (H st Hi st Hi). Qed.
Lemma kp_lift {A B} (o : outcome tls_error A) (f : A -> M S tls_error B) : (forall a, o = Ok a -> kept (f a)) -> kept (bind (lift o) f).
Proof. intros H st Hi. unfold bind, lift. destruct o as [a|e|x| |]; try exact Hi. now apply H. Qed.
Lemma kp_attempt {A} (m : M S tls_error A) : kept m -> kept (attempt m).
Proof. intros H st Hi. specialize (H st Hi). unfold attempt. now destruct (m st) as [[a|e|x| |] st']. Qed.
Lemma kp_ret {A} (a : A) : kept (ret a). Proof. now apply kp_same. Qed.
Lemma kp_fail {A} e : kept (@fail S tls_error A e). Proof. now apply kp_same. Qed.
Lemma kp_panic {A} e : kept (@panic S tls_error A e). Proof. now apply kp_same. Qed.
Lemma kp_end {A} (o : outcome tls_error A) : kept (lift o). Proof. now apply kp_same. Qed.
Lemma kp_modify f : (forall s, I s -> I (f s)) -> kept (modify f).
Proof. intros H st Hi. now apply H. Qed.
End Kept.

(** ** The reader *)

Definition seen (r : rdst) : Prop := r_transcript (rd_ks r) <> [] /\ rd_wf r.

Lemma app_not_nil {A} (a b : list A) : a <> [] -> a ++ b <> [].
Proof. destruct a; [contradiction|discriminate]. Qed.

Lemma handshake_grows C tr q h tr' q' : pwf q -> read_server_handshake C tr q = (Ok (h, tr'), q') -> pwf q' /\ exists x, tr' = tr ++ x.
Proof.
  intros Hq E. pose proof (read_server_handshake_spec C tr q Hq) as H. rewrite E in H. destruct H as (_ & _ & Hq' & ->). split; [exact Hq'|eauto].
Qed.

Lemma decode_grows C h off f tr rec tr' : sr_decode C h off f tr = Ok (rec, tr') -> exists x, tr' = tr ++ x.
Proof.
  intros H. unfold sr_decode in H. apply obind_ok in H as (n & _ & H).
  destruct (negb (n =? length f)); [discriminate|]. apply obind_ok in H as (t & Ht & H).
  assert (G : tr' = tr -> exists x, tr' = tr ++ x) by (intros ->; exists []; now rewrite app_nil_r).
  destruct t; try discriminate; try (apply G; congruence).
  - apply obind_ok in H as (ld & _ & H). apply G. congruence.
  - apply obind_ok in H as ([hh tr1] & H1 & H). cbn [fst snd] in H.
    destruct (read_server_handshake C tr (pb_new f)) as [o p'] eqn:E. cbn [fst] in H1. subst o.
    apply handshake_grows in E as (_ & x & ->); [|unfold pwf; cbn; lia]. exists x. congruence.
Qed.

Lemma seen_read C : kept seen (rd_read C).
Proof.
  intros r [Ht Hw]. destruct (rd_read C r) as [o r'] eqn:E. cbn [snd].
  destruct (rd_read_any C r o r' Hw E) as (W & _ & _ & [(_ & Hk & _)|(h & f & _ & Hd)]).
  - split; [now rewrite Hk|exact W].
  - destruct (sr_decode C h _ f _) as [[rec tr']|e|x| |] eqn:Es; try contradiction.
    + destruct Hd as [_ Hk]. split; [|exact W]. rewrite Hk. cbn [snd r_with_transcript r_transcript].
      apply decode_grows in Es as (x & ->). now apply app_not_nil.
    + destruct Hd as [_ Hk]. split; [now rewrite Hk|exact W].
Qed.

Section Decrypting.
Context {S : Type} (C : crypto) (cb : rks -> server_record -> M S tls_error unit) (J : S -> Prop).
Context (Hcb : forall k rec s, r_transcript k <> [] -> J s -> J (snd (cb k rec s))).

Definition seen_with (st : rdst * S) : Prop := seen (fst st) /\ J (snd st).

Lemma sw_fst {A} (m : M rdst tls_error A) : kept seen m -> kept seen_with (on_fst m).
Proof. intros H [r s] [H1 H2]. specialize (H r H1). unfold on_fst, seen_with. cbn [fst snd] in *. now destruct (m r). Qed.
Lemma sw_cb rec : kept seen_with (call_cb cb rec).
Proof.
  intros [r s] [H1 H2]. unfold call_cb, seen_with. cbn [fst snd] in *. specialize (Hcb (rd_ks r) rec s (proj1 H1) H2). now destruct (cb _ rec s).
Qed.

Lemma sw_loop : forall fuel q, pwf q -> kept seen_with (handshake_loop C cb fuel q).
Proof.
  induction fuel as [|fuel IH]; intros q Hq; cbn [handshake_loop]; apply kp_lift; intros r _; destruct (r =? 0); try apply kp_ret; try apply kp_end.
  apply kp_get. intros st0 [[Ht _] _]. destruct (read_server_handshake _ _ q) as [o q'] eqn:E. apply kp_lift. intros [hh tr'] ->.
  apply handshake_grows in E as (Hq' & x & ->); [|exact Hq]. cbn [fst snd].
  apply kp_bind; [|intros _; apply kp_bind; [apply sw_cb|intros _; now apply IH]].
  apply sw_fst. apply kp_modify. intros r0 [_ Hw]. split; [|exact Hw]. cbn [rd_ks r_with_transcript r_transcript]. now apply app_not_nil.
Qed.

Lemma sw_decrypt rec : kept seen_with (decrypt_record C cb rec).
Proof.
  unfold decrypt_record. destruct rec as [m| | |h off data]; try apply sw_cb.
  apply kp_get. intros st0 _. cbv zeta. apply kp_lift. intros nonce _.
  destruct (decrypt_in_place _ _ _ _ _) as [o data1]. apply kp_lift. intros _ _. apply kp_bind.
  { apply sw_fst. intros r [Ht Hw]. unfold bind, get, lift, put, set_rng.
    destruct (off + length (cb_buf data1) <=? length (rd_buf r)) eqn:E; cbn [snd]; [|split; assumption].
    apply Nat.leb_le in E. split; [exact Ht|]. unfold rd_wf in *. cbn [rd_buf rd_decoded rd_pending]. rewrite splice_length by lia. exact Hw. }
  intros _. destruct (strip_content_type data1) as [o2 data2]. apply kp_lift. intros t _. apply kp_lift. intros inner _.
  apply kp_bind.
  2:{ intros _. apply sw_fst. intros r [Ht Hw]. unfold rd_increment, bind, get, lift, put. destruct (increment_counter _); cbn [snd]; split; assumption. }
  destruct t; try apply kp_fail; try apply sw_cb.
  - apply kp_lift. intros ld _. apply sw_cb.
  - apply sw_loop. unfold pwf, pb_new. cbn. lia.
Qed.
End Decrypting.

(** ** Records to be sent *)

Lemma finish_grows C r w pl tr pl' tr' : cr_finish C r w pl tr = Ok (pl', tr') -> exists x, tr' = tr ++ x.
Proof.
  intros H. destruct r as [h e|l d e]; cbn [cr_finish] in H.
  - destruct e; [exists pl; congruence|]. destruct h as [ce|cv|ch|fi]; cbn [finalize_client_handshake] in H; try (exists pl; congruence).
    unfold finalize_client_hello in H. destruct (cfg_psk (ch_config ch)) as [[k ids]|]; [|exists pl; congruence].
    cbv zeta in H. apply obind_ok in H as (bp & _ & H). apply obind_ok in H as (p2 & _ & H). apply obind_ok in H as (pre & _ & H).
    apply obind_ok in H as (tl & _ & H). destruct (write_binders _ _ _ _ _) as [[u|e|x| |] c]; try discriminate.
    apply obind_ok in H as (rest & _ & H). exists (pre ++ rest). rewrite app_assoc. congruence.
  - exists []. rewrite app_nil_r. congruence.
Qed.

Lemma write_grows C r w tr b s tr' b' : wb_write_record C r w tr b = (Ok (s, tr'), b') -> exists x, tr' = tr ++ x.
Proof.
  intros H. unfold wb_write_record in H. apply bind_ok in H as (b0 & b1 & H0 & H). destruct (wb_hdr b0); [discriminate|].
  apply bind_ok in H as (u & b2 & _ & H). apply bind_ok in H as (tr1 & b3 & Hw & H). apply bind_ok in H as (s1 & b4 & _ & H).
  assert (tr1 = tr') by (unfold ret in H; congruence). subst tr1. clear H.
  unfold with_buffer in Hw. destruct ((cb_forward ;;; _) _) as [o c] eqn:E. destruct o as [t0|e|x| |]; try discriminate.
  assert (t0 = tr') by congruence. subst t0. clear Hw.
  apply bind_ok in E as (? & ? & _ & E). apply bind_ok in E as (? & ? & _ & E). apply bind_ok in E as (t1 & ? & Hf & E).
  apply bind_ok in E as (? & ? & _ & E). assert (t1 = tr') by (unfold ret in E; congruence). subst t1. clear E.
  unfold wb_finish_payload in Hf. apply bind_ok in Hf as (c1 & ? & _ & Hf). apply bind_ok in Hf as (pl & ? & _ & Hf).
  apply bind_ok in Hf as ([pl' t2] & ? & Hf0 & Hf). apply lift_ok in Hf0 as [Hf0 _].
  apply bind_ok in Hf as (? & ? & _ & Hf). apply bind_ok in Hf as (? & ? & _ & Hf). assert (t2 = tr') by (unfold ret in Hf; congruence). subst t2.
  now apply finish_grows in Hf0.
Qed.

(** ** The connection *)

(** Some handshake message is in the transcript; the write IV has the right size; the reader is in order. *)
Definition marked (C : crypto) (c : conn) : Prop :=
  tr_of c <> [] /\ length (k_iv (wst (cn_wh c))) = iv_len C /\ rd_wf (cn_rd c).

Section Conn.
Context (C : crypto) (HC : crypto_ok C).

Definition wiv (w : whalf) : Prop := length (k_iv (wst w)) = iv_len C.

Lemma wi_wb {A} (m : M wbuf tls_error A) : kept wiv (on_wb m).
Proof. intros w H. unfold on_wb. now destruct (m (wh_wb w)). Qed.
Lemma wi_tx {A} (m : M txst io_kind A) : kept wiv (on_tx m).
Proof. intros w H. unfold on_tx. now destruct (m (wh_tx w)). Qed.
Lemma wi_increment : kept wiv wh_increment.
Proof.
  intros w H. unfold wh_increment, bind, get, lift, put. unfold increment_counter.
  destruct (_ <? _)%N; cbn [snd]; exact H.
Qed.
Lemma wi_respond s : kept wiv (respond s).
Proof. unfold respond. apply kp_bind; [apply wi_tx|intros _]. apply kp_bind; [apply wi_increment|intros _; apply wi_tx]. Qed.
Lemma wi_flush : kept wiv (wh_flush C).
Proof.
  unfold wh_flush. apply kp_get. intros w _. destruct (wb_is_empty _); [apply kp_ret|].
  apply kp_bind; [apply wi_wb|intros s]. apply kp_bind; [apply wi_tx|intros _]. apply kp_bind; [apply wi_increment|intros _].
  destruct (policy_flush_transport _); [apply wi_tx|apply kp_ret].
Qed.
Lemma wi_write op b : kept wiv (wh_write C op b).
Proof.
  unfold wh_write. destruct op; [|apply kp_fail]. apply kp_get. intros w _. apply kp_bind.
  { destruct (wb_contains _ _); [apply kp_ret|]. apply kp_bind; [apply wi_flush|intros _]. apply wi_wb. }
  intros _. apply kp_get. intros w1 _. apply kp_lift. intros nb _. apply kp_bind; [apply wi_wb|intros _]. apply kp_lift. intros f _.
  apply kp_bind; [destruct f; [apply wi_flush|apply kp_ret]|intros _]. apply kp_ret.
Qed.

Lemma mk_wh {A} (m : M whalf tls_error A) : kept wiv m -> kept (marked C) (on_wh m).
Proof.
  intros H c (H1 & H2 & H3). specialize (H (cn_wh c) H2). unfold on_wh. destruct (m (cn_wh c)) as [o w]. cbn [snd] in *. repeat split; assumption.
Qed.
Lemma mk_rd {A} (m : M rdst tls_error A) : kept seen m -> kept (marked C) (on_rd m).
Proof.
  intros H c (H1 & H2 & H3). specialize (H (cn_rd c) (conj H1 H3)). unfold on_rd. destruct (m (cn_rd c)) as [o w]. cbn [snd] in *.
  destruct H as [G1 G2]. repeat split; assumption.
Qed.
Lemma seen_transcript tr : tr <> [] -> kept seen (set_transcript tr).
Proof. intros Ht. apply kp_modify. intros r [_ Hw]. split; [exact Ht|exact Hw]. Qed.

Lemma mk_write_record r : kept (marked C) (cn_write_record C r).
Proof.
  intros c Hm. unfold cn_write_record, bind at 1, get at 1, bind at 1, on_wh at 1, on_wb.
  destruct (wb_write_record C r _ _ _) as [o b] eqn:E. destruct Hm as (H1 & H2 & H3).
  destruct o as [[s tr']|e|x| |]; try (cbn [snd]; repeat split; assumption).
  apply write_grows in E as (y & ->). unfold bind, on_rd, set_transcript, modify, ret. cbn [fst snd cn_rd cn_dec cn_wh].
  split; [|split; assumption]. unfold tr_of. cbn [cn_rd rd_ks r_with_transcript r_transcript]. now apply app_not_nil.
Qed.

(** *** The application's calls *)

Lemma rh_seen {A} (m : M rhalf tls_error A) : kept (seen_with (fun _ => True)) m -> kept (marked C) (on_rh m).
Proof.
  intros H c (H1 & H2 & H3). unfold on_rh. specialize (H (cn_rd c, (cn_dec c, cn_opened c)) (conj (conj H1 H3) I)).
  destruct (m _) as [o [r [d op]]]. destruct H as [[G1 G2] _]. cbn [snd fst] in *. repeat split; assumption.
Qed.

Notation sw := (seen_with (S := dec_info * bool) (fun _ => True)).
Lemma sw_rad : kept sw (read_application_data C).
Proof.
  unfold read_application_data. apply kp_bind; [apply sw_fst, seen_read|intros rec]. apply kp_get. intros st _. now apply sw_decrypt.
Qed.
Lemma sw_fill : forall fuel, kept sw (fill_loop C fuel).
Proof.
  induction fuel as [|fuel IH]; cbn [fill_loop]; apply kp_get; intros st _; apply kp_lift; intros e _; destruct (negb e); try apply kp_ret; try apply kp_end.
  apply kp_bind; [apply sw_rad|intros _; apply IH].
Qed.
Lemma sw_buffered : kept sw (rh_read_buffered C).
Proof.
  unfold rh_read_buffered. apply kp_get. intros [r [d op]] _. destruct op; [|apply kp_fail]. apply kp_bind; [apply sw_fill|intros _].
  apply kp_get. intros st _. apply kp_end.
Qed.
Lemma sw_drop r : kept sw (rh_drop r).
Proof. unfold rh_drop. apply kp_get. intros st _. apply kp_modify. intros s H. exact H. Qed.

Lemma step_marked o : kept (marked C) (step C o).
Proof.
  destruct o as [b| |pol|dst| |n|ops fin|]; cbn [step]; (apply kp_bind; [|intros ?; apply kp_ret]).
  - unfold cn_write. apply kp_get. intros c0 _. apply mk_wh, wi_write.
  - apply mk_wh, wi_flush.
  - apply mk_wh. apply kp_modify. intros w H. exact H.
  - apply rh_seen. unfold rh_read. destruct (_ =? _); [apply kp_ret|]. apply kp_bind; [apply sw_buffered|intros r].
    apply kp_lift. intros bnr _. apply kp_bind; [apply sw_drop|intros _; apply kp_ret].
  - apply rh_seen. unfold rh_fill_buf. apply kp_bind; [apply sw_buffered|intros r].
    apply kp_lift. intros bnr _. apply kp_bind; [apply sw_drop|intros _; apply kp_ret].
  - apply rh_seen. unfold rh_consume. apply kp_get. intros st _. apply kp_lift. intros r _. apply kp_lift. intros bnr _. apply sw_drop.
  - apply rh_seen. unfold rh_with_buffer. apply kp_bind; [apply sw_buffered|intros r].
    apply kp_lift. intros bnr _. apply kp_bind; [|intros _; apply kp_ret]. destruct fin; [apply sw_drop|].
    apply kp_get. intros st _. apply kp_modify. intros s H. exact H.
  - unfold cn_close. apply kp_bind; [apply mk_wh, wi_flush|intros _]. apply kp_get. intros c0 _. apply kp_bind; [apply mk_write_record|intros s].
    apply kp_bind; [apply mk_wh, wi_tx|intros _]. apply kp_bind; [apply mk_wh, wi_increment|intros _]. apply mk_wh, wi_tx.
Qed.

(** *** [open] *)

Section Opening.
Context {V : Type} (p : provider V) (cfg : tls_config).

Definition saved (h : @hs_data V) : Prop := hs_traffic h <> Some [].
Definition marked_with (st : conn * @hs_data V) : Prop := marked C (fst st) /\ saved (snd st).

Lemma mw_conn {A} (m : M conn tls_error A) : kept (marked C) m -> kept marked_with (on_conn m).
Proof. intros H [c h] [H1 H2]. specialize (H c H1). unfold on_conn, marked_with. cbn [fst snd] in *. now destruct (m c). Qed.
Lemma mw_hs f : (forall h, saved h -> saved (f h)) -> kept marked_with (mod_hs f).
Proof. intros H. apply kp_modify. intros [c h] [H1 H2]. split; [exact H1|now apply H]. Qed.

Lemma mk_ks f : (forall k k', f k = Ok k' -> r_transcript (ks_r k') = r_transcript (ks_r k) /\
    (length (k_iv (w_state (ks_w k))) = iv_len C -> length (k_iv (w_state (ks_w k'))) = iv_len C)) -> kept (marked C) (on_ks f).
Proof.
  intros H c (H1 & H2 & H3). unfold on_ks. destruct (f (cn_keysched c)) as [k'|e|x| |] eqn:E; try (cbn [snd]; repeat split; assumption).
  apply H in E as [E1 E2]. cbn [snd]. split; [|split; [apply E2; exact H2|exact H3]].
  unfold tr_of, cn_with_keysched, rd_with_ks. cbn [cn_rd rd_ks]. rewrite E1. exact H1.
Qed.

Lemma mk_early psk : kept (marked C) (on_ks (fun k => initialize_early_secret C k psk)).
Proof.
  apply mk_ks. intros k k' H. unfold initialize_early_secret in H. apply obind_ok in H as (bk & _ & H).
  apply obind_ok in H as (b & _ & H). apply obind_ok in H as (sh & _ & H). injection H as <-. split; [reflexivity|auto].
Qed.
Lemma ihs_transcript k dhe k2 : initialize_handshake_secret C k dhe = Ok k2 -> r_transcript (ks_r k2) = r_transcript (ks_r k).
Proof.
  intros H. unfold initialize_handshake_secret, calculate_traffic_secrets in H. cbn [ks_shared ks_w ks_r] in H.
  apply obind_ok in H as (k1 & H1 & H). apply obind_ok in H1 as (a & _ & H1). apply obind_ok in H1 as (b & _ & H1). injection H1 as <-.
  apply obind_ok in H as (sh & _ & H). injection H as <-. reflexivity.
Qed.
Lemma mk_handshake dhe : kept (marked C) (on_ks (fun k => initialize_handshake_secret C k dhe)).
Proof. apply mk_ks. intros k k' H. split; [now apply ihs_transcript in H|intros _]. apply (ihs_iv C) in H; [|exact HC]. apply H. Qed.
Lemma mk_master : kept (marked C) (on_ks (initialize_master_secret C)).
Proof. apply mk_ks. intros k k' H. apply (ims_iv C) in H; [|exact HC]. split; [apply H|intros _; apply H]. Qed.

Lemma mw_write r : kept marked_with (on_conn (cn_write_record C r)). Proof. apply mw_conn, mk_write_record. Qed.
Lemma mw_respond s : kept marked_with (on_conn (on_wh (respond s))). Proof. apply mw_conn, mk_wh, wi_respond. Qed.

Lemma verify_cb_saved k rec (s : hs_state * @hs_data V) : r_transcript k <> [] -> saved (snd s) -> saved (snd (snd (server_verify_cb C p k rec s))).
Proof.
  intros Hk. revert s. change (kept (fun s : hs_state * @hs_data V => saved (snd s)) (server_verify_cb C p k rec)).
  assert (Hv : forall m : M V tls_error unit, kept (fun s : hs_state * @hs_data V => saved (snd s)) (on_v m)).
  { intros m [s h] H. unfold on_v. cbn [fst snd] in *. now destruct (m (hs_v h)). }
  destruct rec as [[e| | |ce|ctx|v|f]| |l d|hd off data]; cbn [server_verify_cb]; try apply kp_ret; try apply kp_fail.
  - destruct (p_has_verifier p); [apply Hv|apply kp_ret].
  - apply kp_lift. intros r _. apply kp_modify. intros [s h] H. exact H.
  - destruct (p_has_verifier p); [apply Hv|apply kp_ret].
  - apply kp_lift. intros ok _. destruct (negb ok); [apply kp_fail|]. apply kp_get. intros st _.
    destruct (hs_certreq (snd st)); [apply kp_modify; intros [s h] H; exact H|].
    apply kp_bind; [|intros _; apply kp_modify; intros [s h] H; exact H].
    apply kp_modify. intros [s h] _. unfold saved. cbn [snd hs_set_traffic hs_traffic]. congruence.
Qed.

Lemma mw_server_verify rec : kept marked_with (process_server_verify C p rec).
Proof.
  intros [c h] [(H1 & H2 & H3) H4]. unfold process_server_verify.
  pose proof (sw_decrypt C (server_verify_cb C p) (fun s => saved (snd s)) verify_cb_saved rec (cn_rd c, (St_ServerVerify, h)) (conj (conj H1 H3) H4)) as G.
  destruct (decrypt_record C _ rec _) as [o [r [s h']]]. destruct G as [[G1 G2] G3]. cbn [fst snd] in *. split; [|exact G3]. repeat split; assumption.
Qed.

Lemma mw_server_hello rec : kept marked_with (process_server_hello C rec).
Proof.
  unfold process_server_hello. destruct rec as [[e| | |ce|ctx|v|f]| |l d|hd off data]; try apply kp_fail.
  apply kp_get. intros st _. apply kp_bind; [apply mw_hs; intros h H; exact H|intros _]. apply kp_lift. intros s _. apply kp_lift. intros d _.
  apply kp_bind; [apply mw_conn, mk_handshake|intros _; apply kp_ret].
Qed.

Lemma mw_hpe m : kept marked_with m -> kept marked_with (handle_processing_error C m).
Proof.
  intros H. unfold handle_processing_error. apply kp_bind; [now apply kp_attempt|intros [s|e]]; [apply kp_ret|].
  destruct e; try apply kp_fail. apply kp_bind; [apply mw_write|intros tx]. apply kp_bind; [apply mw_respond|intros _; apply kp_fail].
Qed.

Lemma mw_process s : kept marked_with (process C p cfg s).
Proof.
  destruct s; cbn [process].
  - apply kp_bind; [|intros tx; apply kp_bind; [apply mw_respond|intros _; apply kp_ret]].
    unfold do_client_hello. apply kp_bind; [apply mw_conn, mk_early|intros _]. apply kp_bind; [apply mw_write|intros tx].
    apply kp_bind; [apply mw_hs; intros h H; exact H|intros _; apply kp_ret].
  - apply kp_bind; [apply mw_conn, mk_rd, seen_read|intros rec]. apply mw_hpe, mw_server_hello.
  - apply kp_bind; [apply mw_conn, mk_rd, seen_read|intros rec]. apply mw_hpe, mw_server_verify.
  - apply kp_bind; [|intros nt; apply kp_bind; [apply mw_respond|intros _; apply kp_ret]].
    unfold do_client_cert. apply kp_get. intros st [(Ht & _) _]. apply kp_bind.
    { apply mw_hs. intros h _. unfold saved. cbn [hs_set_traffic hs_traffic]. unfold tr_of in Ht. congruence. }
    intros _. apply kp_lift. intros ctx _. destruct (p_client_cert p); (apply kp_bind; [apply mw_write|intros ?; apply kp_ret]).
  - apply kp_bind; [|intros rt; apply kp_bind; [apply mw_respond|intros _; destruct (fst rt); [apply kp_ret|apply kp_fail]]].
    unfold do_client_cert_verify. apply kp_get. intros st _.
    destruct (p_signer p) as [[sign scheme]|e|x| |]; [|apply kp_bind; [apply mw_write|intros ?; apply kp_ret]|apply kp_panic|apply kp_end|apply kp_end].
    apply kp_lift. intros msg _. destruct (sign msg); [|apply kp_panic]. destruct (_ <? _); [apply kp_panic|].
    apply kp_bind; [apply mw_write|intros ?; apply kp_ret].
  - apply kp_bind; [|intros tx; apply kp_bind; [apply mw_respond|intros _]].
    + unfold do_client_finished. apply kp_get. intros st _. apply kp_lift. intros v _. apply mw_write.
    + unfold client_finished_finalize. apply kp_get. intros st [_ Hs]. apply kp_bind; [apply mw_hs; intros h _; unfold saved; cbn; discriminate|intros _].
      apply kp_lift. intros tr Htr. apply kp_bind; [|intros _; apply kp_bind; [apply mw_conn, mk_master|intros _; apply kp_ret]].
      apply mw_conn, mk_rd, seen_transcript. unfold saved in Hs. destruct (hs_traffic (snd st)); cbn in Htr; congruence.
  - apply kp_ret.
Qed.

Lemma mw_loop : forall fuel s, kept marked_with (open_loop C p cfg fuel s).
Proof.
  induction fuel as [|fuel IH]; intros s; destruct s; cbn [open_loop]; try apply kp_ret; try apply kp_end;
    (apply kp_bind; [apply mw_process|intros ?; apply IH]).
Qed.

Lemma open_marked v : kept (marked C) (cn_open C p cfg v).
Proof.
  intros c Hm. unfold cn_open. destruct (match p_has_verifier p, _ with true, Some n => _ | _, _ => _ end) as [o0 v'].
  assert (G : marked_with (snd ((lift o0 ;;; open_loop C p cfg (8 + rx_size (rd_rx (cn_rd c))) St_ClientHello) (c, hs_new v')))).
  { apply (kp_lift marked_with o0 (fun _ => open_loop C p cfg (8 + rx_size (rd_rx (cn_rd c))) St_ClientHello)); [intros ? _; apply mw_loop|].
    split; [exact Hm|]. unfold saved, hs_new. cbn. discriminate. }
  destruct ((lift o0 ;;; _) _) as [o [c' h']]. destruct G as [G _]. cbn [snd fst] in G. destruct o as [[]|e|x| |]; exact G.
Qed.

Lemma hello_not_empty ch w tr msg : hello_msg C ch w tr msg -> msg <> [].
Proof.
  unfold hello_msg. assert (G : forall b, hello_image C ch b <> []) by (intros b; unfold hello_image; discriminate).
  destruct (cfg_psk (ch_config ch)) as [[k ids]|]; [intros (bk & v & _ & _ & ->)|intros ->]; apply G.
Qed.

(** An [open] that sends anything marks the connection. *)
Lemma first_marked L v c o c' : idle C L c -> rd_wf (cn_rd c) -> cn_open C p cfg v c = (o, c') ->
  log_of (cn_wh c') <> log_of (cn_wh c) -> marked C c'.
Proof.
  intros Hid Hw H Hlog. unfold cn_open in H. destruct (match p_has_verifier p, _ with true, Some n => _ | _, _ => _ end) as [o0 v'].
  destruct ((lift o0 ;;; open_loop C p cfg (8 + rx_size (rd_rx (cn_rd c))) St_ClientHello) (c, hs_new v')) as [om stm] eqn:Em.
  assert (G : log_of (cn_wh (fst stm)) <> log_of (cn_wh c) -> marked_with stm).
  { clear H. unfold bind at 1, lift at 1 in Em. destruct o0 as [[]|e|x| |]; try (apply pair_equal_spec in Em as [_ <-]; intros Hn; now destruct Hn).
    change (8 + rx_size (rd_rx (cn_rd c))) with (S (7 + rx_size (rd_rx (cn_rd c)))) in Em. cbn [open_loop] in Em. unfold bind at 1 in Em. cbn [process] in Em.
    destruct ((tx <- do_client_hello C p cfg;; on_conn (on_wh (respond tx));;; ret St_ServerHello) (c, hs_new v')) as [o1 st1] eqn:E1.
    assert (G1 : (exists a, o1 = Ok a) \/ log_of (cn_wh (fst st1)) <> log_of (cn_wh c) -> marked_with st1).
    { unfold bind at 1 in E1. destruct (do_client_hello C p cfg (c, hs_new v')) as [o2 st2] eqn:E2.
      assert (G2 : match o2 with Ok _ => marked_with st2 | _ => wh_tx (cn_wh (fst st2)) = wh_tx (cn_wh c) end).
      { unfold do_client_hello in E2. unfold bind at 1, on_conn at 1 in E2. unfold on_ks in E2. cbn [fst snd] in E2.
        destruct (initialize_early_secret C (cn_keysched c) _) as [k1|e|x| |] eqn:Ek;
          try (apply pair_equal_spec in E2 as [<- <-]; reflexivity).
        cbv zeta in E2. unfold bind at 1, on_conn at 1 in E2. cbn [fst snd] in E2.
        destruct (cn_write_record C _ (cn_with_keysched c k1)) as [o3 c3] eqn:Ew.
        destruct (ie_binder C _ _ _ Ek) as [Hbk Hws].
        destruct o3 as [s|e|x| |];
          try (apply pair_equal_spec in E2 as [<- <-]; apply cn_write_not_ok in Ew; [exact Ew|discriminate]).
        apply (cn_write_ok C L) in Ew; [|exact HC| |reflexivity|intros ? ? _ _; exact Hbk].
        2:{ split; [exact (proj1 Hid)|]. unfold wst. cbn [cn_with_keysched cn_wh wh_with_ks wh_ks]. rewrite Hws. exact (proj2 Hid). }
        destruct Ew as (pl & b & Hpl & -> & Hb & _ & ->). cbn [payload_of] in Hpl. apply hello_not_empty in Hpl.
        unfold bind, mod_hs, modify, ret in E2. apply pair_equal_spec in E2 as [<- <-]. split; [|cbn; discriminate].
        split; [|split; [|exact Hw]].
        - unfold tr_of. cbn [fst cn_rd rd_with_ks rd_ks r_with_transcript r_transcript tr_after]. intros Hn. apply app_eq_nil in Hn as [_ Hn]. contradiction.
        - unfold wst. cbn [fst cn_wh wh_ks cn_with_keysched wh_with_ks]. rewrite Hws. exact (proj2 Hid). }
      destruct o2 as [tx|e|x| |]; try (apply pair_equal_spec in E1 as [<- <-]; intros [[a Ha]|Hn]; [discriminate|]; destruct Hn; unfold log_of; now rewrite G2).
      intros _. assert (K : kept marked_with (on_conn (on_wh (respond tx));;; ret St_ServerHello)).
      { apply kp_bind; [apply mw_respond|intros _; apply kp_ret]. }
      specialize (K st2 G2). rewrite E1 in K. exact K. }
    destruct o1 as [s1|e|x| |]; try (apply pair_equal_spec in Em as [_ <-]; intros Hn; apply G1; right; exact Hn).
    intros _. pose proof (mw_loop (7 + rx_size (rd_rx (cn_rd c))) s1 st1 (G1 (or_introl (ex_intro _ s1 eq_refl)))) as K. rewrite Em in K. exact K. }
  rename om into o1. destruct stm as [c1 h1]. cbn [fst snd] in G.
  assert (Hc : cn_rd c' = cn_rd c1 /\ cn_wh c' = cn_wh c1).
  { destruct o1 as [[]|e|x| |]; apply pair_equal_spec in H as [_ <-]; split; reflexivity. }
  destruct Hc as [Hc1 Hc2]. rewrite Hc2 in Hlog. destruct (G Hlog) as [(G1 & G2 & G3) _]. cbn [fst] in *.
  unfold marked, tr_of in *. rewrite Hc1, Hc2. repeat split; assumption.
Qed.
End Opening.
End Conn.
