(** * How a handshake fails *)
From Coq Require Import String List NArith Arith Bool Lia ZArith.
From Coq.Strings Require Import Byte.
From Coq Require Import ZifyBool ZifyNat ZifyN.
From Verif Require Import Base ParseBuffer Buffer Codes Extensions Crypto KeySchedule Config Handshake Record WriteBuffer
  Transport RecordReader ReadBuffer Connection Api BaseProofs ParseProofs SpecWire SpecCodes SpecMessages WireProofs BufferProofs ExtProofs SpecKeys
  SpecRecord SpecRead KeyProofs RecordProofs SpecSend SendProofs SpecHello HelloProofs PropHello WriteProofs PropKeys PropCodes PropCert HsWrite HsProofs ConnProofs FrameProofs PropFrame DecryptProofs
  FlagProofs ReadProofs RecvProofs SpecHandshake AcceptProofs LocalProofs FlightProofs OpenProofs SpecOpen AbortProofs SpecComplete MessageProofs CompleteProofs SpecDefect DefectProofs SpecFailure.
Import ListNotations.
Local Open Scope list_scope.

(** ** Reading *)

Lemma header_content h n : length h = 5 -> be_val (skipn 3 h) = N.of_nat n -> hdr_content_length h = Ok n.
Proof.
  intros Hl Hv. destruct h as [|a [|b [|c [|d [|e [|]]]]]]; try discriminate. cbn [skipn] in Hv.
  unfold hdr_content_length, index. cbn [nth_error obind]. rewrite Hv. now rewrite Nat2N.id.
Qed.

Lemma unreadable_fwd C s w e : ready s -> stream (rd_rx s) = w -> unreadable (length (rd_buf s)) w e ->
  exists s', rd_read C s = (Err e, s').
Proof.
  intros Hr Hs Hu. inversion Hu as [w' Hl|h w' Hl Ht|h n w' Hl Ht Hn Hlt|h n w' Hl Ht Hn Hle Hlt]; subst.
  - destruct (ready_short C s Hr) as (s' & E & _); [congruence|eauto].
  - destruct (ready_badtype C s h w' Hr) as (rx' & _ & _ & E); auto; [|eauto].
    intros Hk. apply Ht. now apply known_type_inv.
  - destruct (ready_toolong C s h w' n Hr) as (rx' & _ & _ & E); auto using type_known_ok, header_content. eauto.
  - destruct (ready_cut C s h w' n Hr) as (s' & E & _); auto using type_known_ok, header_content. eauto.
Qed.

Lemma decode_fails C s h f rest t ct e : ready s -> stream (rd_rx s) = h ++ f ++ rest -> framed h f ->
  hd_error h = Some t -> content_type_of (Byte.to_N t) = Some ct -> length f <= length (rd_buf s) ->
  sr_decode C h (place s (length f)) f (r_transcript (rd_ks s)) = Err e ->
  exists r1, rd_read C s = (Err e, r1).
Proof.
  intros Hr Hs Hf Hh Ht Hl Hd. destruct (type_ok h t ct Hh Ht) as [Hk _].
  destruct (ready_frame C s h f rest Hr Hs Hf Hk Hl) as (rx' & Hrx & Hch & ->). rewrite Hd. eauto.
Qed.

(** ** Alerts *)

Lemma alert_fwd f l d : is_alert f l d -> fst (parse_alert (pb_new f)) = Ok (l, d).
Proof. intros [junk ->]. now destruct l, d. Qed.

Lemma bad_alert_fwd f e : bad_alert f e -> fst (parse_alert (pb_new f)) = Err e.
Proof.
  intros H. destruct H as [b Hb|l d b Hc].
  - destruct b as [|x [|y b]]; [reflexivity|reflexivity|cbn in Hb; lia].
  - unfold parse_alert. unfold bind at 1, pq at 1, map_err at 1. cbn -[alert_level_of alert_desc_of].
    unfold bind, pq, map_err, lift. cbn -[alert_level_of alert_desc_of].
    destruct (alert_level_of (Byte.to_N l)) as [l'|] eqn:El; [|reflexivity].
    destruct (alert_desc_of (Byte.to_N d)) as [d'|] eqn:Ed; [|reflexivity].
    exfalso. apply Hc. split.
    + apply (in_map fst _ (Byte.to_N l, l')). now apply C03_alert_level.
    + apply (in_map fst _ (Byte.to_N d, d')). now apply C03_alert_description.
Qed.

(** ** Errors of the processing *)

(** What [open] sends because of the error. *)
Definition alert_for (e : tls_error) : list tx_event :=
  match e with AbortHandshake l d => goes_out (clear_alert l d) | _ => [] end.
Definition alerts (o : outcome tls_error unit) : list tx_event := match o with Err e => alert_for e | _ => [] end.

Section Fails.
Context {V : Type} (C : crypto) (p : provider V) (cfg : tls_config).
Notation sv := (hs_state * @hs_data V)%type.

Lemma hpe_fails L (m : M (conn * @hs_data V) tls_error hs_state) st e c h : crypto_ok C ->
  m st = (Err e, (c, h)) -> idle C L c -> 24 <= L -> tx_ok (wh_tx (cn_wh c)) -> (k_counter (wst (cn_wh c)) < u64_max)%N ->
  exists c', handle_processing_error C m st = (Err e, (c', h)) /\ log_of (cn_wh c') = log_of (cn_wh c) ++ alert_for e.
Proof.
  intros HC Hm Hid HL Htx Hn. unfold handle_processing_error, attempt, bind at 1. rewrite Hm.
  assert (G : (forall l d, e <> AbortHandshake l d) -> alert_for e = [] /\
    match e with
    | AbortHandshake l d => tx <- on_conn (cn_write_record C (CR_Alert l d false)) ;; on_conn (on_wh (respond tx)) ;;; fail (AbortHandshake l d)
    | _ => fail e
    end (c, h) = (Err e, (c, h)) :> outcome tls_error hs_state * (conn * @hs_data V)).
  { intros Hna. destruct e; try (split; reflexivity). now destruct (Hna l d). }
  destruct e; try (destruct G as [-> ->]; [discriminate|]; exists c; rewrite app_nil_r; auto). clear G.
  destruct (sends_fwd C L (CR_Alert l d false) c h HC Hid I) as (sb & c6 & msg & c7 & Hw & Hresp & Hsd7 & Htx7); auto.
  { intros ? ? [=]. }
  exists c7. split.
  - unfold bind at 1, on_conn at 1. cbn [fst snd]. rewrite Hw. unfold bind at 1. rewrite Hresp. reflexivity.
  - destruct Hsd7 as (Hpl & -> & _). cbn [payload_of] in Hpl. subst msg. rewrite (alert_rec_wire C). reflexivity.
Qed.

Lemma hpe_other (m : M (conn * @hs_data V) tls_error hs_state) st o st' :
  m st = (o, st') -> match o with Ok _ | Err _ => False | _ => True end -> handle_processing_error C m st = (o, st').
Proof. intros H Ho. unfold handle_processing_error, attempt, bind at 1. rewrite H. now destruct o. Qed.

(** ** The first record *)

Lemma plain_decode h f off tr t : framed h f -> hd_error h = Some t -> content_type_of (Byte.to_N t) <> None ->
  sr_decode C h off f tr =
  match content_type_of (Byte.to_N t) with
  | Some CT_Invalid | None => Err Unimplemented
  | Some CT_ChangeCipherSpec => Ok (SR_ChangeCipherSpec, tr)
  | Some CT_Alert => ld <-- fst (parse_alert (pb_new f)) ;; Ok (SR_Alert (fst ld) (snd ld), tr)
  | Some CT_Handshake => ht <-- fst (read_server_handshake C tr (pb_new f)) ;; Ok (SR_Handshake (fst ht), snd ht)
  | Some CT_ApplicationData => Ok (SR_AppData h off (cb_wrap_with_pos f (length f)), tr)
  end.
Proof.
  intros Hf Hh Ht. unfold sr_decode. rewrite (framed_length _ _ Hf). cbn [obind]. rewrite Nat.eqb_refl. cbn [negb].
  destruct (content_type_of (Byte.to_N t)) as [ct|] eqn:E; [|contradiction].
  rewrite (proj2 (type_ok h t ct Hh E)). reflexivity.
Qed.

Lemma not_shared items exts secret : block_result grp_server_hello 4 [] items = Ok exts ->
  (forall g share, share_of items g share -> c_dh C secret share = None) -> sh_shared_secret C exts secret = None.
Proof.
  intros Hb H. unfold sh_shared_secret. destruct (sh_key_share exts) as [[g sh]|] eqn:E; [|reflexivity].
  eapply H, share_of_block; eauto.
Qed.

Lemma first_step L c (h : @hs_data V) h0 f rest e : crypto_ok C -> ready (cn_rd c) -> stream (rd_rx (cn_rd c)) = h0 ++ f ++ rest -> framed h0 f ->
  length f <= length (rd_buf (cn_rd c)) -> hs_secret h = Some (p_secret p) -> idle C L c -> 24 <= L ->
  tx_ok (wh_tx (cn_wh c)) -> (k_counter (wst (cn_wh c)) < u64_max)%N -> first_fails C (p_secret p) h0 f e ->
  exists c' h', process C p cfg St_ServerHello (c, h) = (Err e, (c', h')) /\ log_of (cn_wh c') = log_of (cn_wh c).
Proof.
  intros HC Hr Hs Hf Hl Hsec Hid HL Htx Hn Hff. cbn [process].
  assert (Hbad : forall t ct, hd_error h0 = Some t -> content_type_of (Byte.to_N t) = Some ct ->
    sr_decode C h0 (place (cn_rd c) (length f)) f (r_transcript (rd_ks (cn_rd c))) = Err e ->
    exists c' h', (rec <- on_conn (on_rd (rd_read C)) ;; handle_processing_error C (process_server_hello C rec)) (c, h) = (Err e, (c', h')) /\
      log_of (cn_wh c') = log_of (cn_wh c)).
  { intros t ct Hh Ht Hd. destruct (decode_fails C _ h0 f rest t ct e Hr Hs Hf Hh Ht Hl Hd) as [r1 E].
    do 2 eexists. split; [unfold bind at 1, on_conn at 1, on_rd at 1; cbn [fst snd]; rewrite E; reflexivity|reflexivity]. }
  assert (Hgood : forall t ct rec tr', hd_error h0 = Some t -> content_type_of (Byte.to_N t) = Some ct ->
    sr_decode C h0 (place (cn_rd c) (length f)) f (r_transcript (rd_ks (cn_rd c))) = Ok (rec, tr') ->
    (forall c1, exists h', process_server_hello C rec (c1, h) = (Err e, (c1, h'))) -> alert_for e = [] ->
    exists c' h', (rec <- on_conn (on_rd (rd_read C)) ;; handle_processing_error C (process_server_hello C rec)) (c, h) = (Err e, (c', h')) /\
      log_of (cn_wh c') = log_of (cn_wh c)).
  { intros t ct rec tr' Hh Ht Hd Hp Ha. destruct (read_fwd C _ h0 f rest t ct rec tr' Hr Hs Hf Hh Ht Hl Hd) as (r1 & E & _).
    unfold bind at 1, on_conn at 1, on_rd at 1. cbn [fst snd]. rewrite E.
    destruct (Hp (mk_conn r1 (cn_dec c) (cn_wh c) (cn_shared c) (cn_opened c))) as [h' Hp'].
    destruct (hpe_fails L _ _ _ _ _ HC Hp' Hid HL Htx Hn) as (c' & E1 & E2). exists c', h'. split; [exact E1|].
    rewrite E2, Ha, app_nil_r. reflexivity. }
  inversion Hff as [? ? l d Hh Hal|? ? ? Hh Hal|? b m junk Hh Hu Hm|? b suite items junk Hh Hu Hsh|? ? ? Hh Hu|? ? Hh|? ? Hh|? ? Hh]; subst.
  - eapply (Hgood ty_alert CT_Alert); [exact Hh|reflexivity| | |reflexivity].
    + rewrite (plain_decode h0 f _ _ ty_alert Hf Hh) by discriminate. cbn [content_type_of]. change (content_type_of (Byte.to_N ty_alert)) with (Some CT_Alert).
      cbn iota. rewrite (alert_fwd f l d Hal). reflexivity.
    + intros c1. exists h. reflexivity.
  - eapply (Hbad ty_alert CT_Alert); [exact Hh|reflexivity|].
    rewrite (plain_decode h0 f _ _ ty_alert Hf Hh) by discriminate. change (content_type_of (Byte.to_N ty_alert)) with (Some CT_Alert).
    cbn iota. rewrite (bad_alert_fwd f e Hal). reflexivity.
  - destruct (understood_parses C b m Hu) as (hh & Hp & Hd).
    eapply (Hgood ty_handshake CT_Handshake); [exact Hh|reflexivity| | |reflexivity].
    + eapply (decode_message C); eauto.
    + intros c1. exists h. destruct m, hh; cbn [denotes] in Hd; try contradiction; reflexivity.
  - destruct (understood_parses C b _ Hu) as (hh & Hp & Hd). destruct hh; cbn [denotes] in Hd; try contradiction.
    eapply (Hgood ty_handshake CT_Handshake); [exact Hh|reflexivity| | |reflexivity].
    + eapply (decode_message C); eauto.
    + intros c1. eexists. cbn [with_hash process_server_hello]. unfold bind at 1, get at 1. unfold bind at 1, mod_hs, modify at 1. cbn [fst snd].
      unfold bind at 1, lift at 1. rewrite Hsec. cbn [ok_or]. unfold bind at 1, lift at 1. rewrite (not_shared items _ _ Hd Hsh). reflexivity.
  - eapply (Hbad ty_handshake CT_Handshake); [exact Hh|reflexivity|].
    rewrite (plain_decode h0 f _ _ ty_handshake Hf Hh) by discriminate. change (content_type_of (Byte.to_N ty_handshake)) with (Some CT_Handshake).
    cbn iota. rewrite pb_new_at. destruct (proj2 (read_faulty C (r_transcript (rd_ks (cn_rd c))) [] f e) Hu) as [q ->]. reflexivity.
  - eapply (Hgood ty_ccs CT_ChangeCipherSpec); [exact Hh|reflexivity| | |reflexivity].
    + rewrite (plain_decode h0 f _ _ ty_ccs Hf Hh) by discriminate. reflexivity.
    + intros c1. exists h. reflexivity.
  - eapply (Hgood ty_data CT_ApplicationData); [exact Hh|reflexivity| | |reflexivity].
    + rewrite (plain_decode h0 f _ _ ty_data Hf Hh) by discriminate. reflexivity.
    + intros c1. exists h. reflexivity.
  - eapply (Hbad x00 CT_Invalid); [exact Hh|reflexivity|].
    rewrite (plain_decode h0 f _ _ x00 Hf Hh) by discriminate. reflexivity.
Qed.

(** ** Messages *)

Lemma taken_agrees t tr v b m v' : message_taken C p t tr v b m v' -> understood C b m /\ in_flight m /\ agrees C p t tr b m v v'.
Proof. intros (H1 & H2 & H3). split; [exact H1|]. split; [exact H2|]. destruct m; exact H3. Qed.

Lemma taken_takes t : crypto_ok C -> forall ms tr s (h : @hs_data V) v', messages_taken C p t tr (hs_v h) ms v' ->
  exists s' h', takes C p t tr (s, h) ms (s', h') /\ hs_v h' = v'.
Proof.
  intros HC. induction ms as [|[b m] ms IH]; intros tr s h v' H; inversion H as [|? ? ? ? v1 ? ? Hm Hr]; subst.
  - exists s, h. split; [constructor|reflexivity].
  - apply taken_agrees in Hm as (Hu & Hin & Ha). destruct (understood_parses C b m Hu) as (hh & Hp & Hd).
    destruct (cb_fwd C p t tr b m hh s h v1 HC Hu Hin Hd Ha) as (s1 & h1 & Hv1 & Hcb). subst v1.
    destruct (IH _ s1 h1 v' Hr) as (s' & h' & Htk & Hv'). exists s', h'. split; [econstructor; eauto|exact Hv'].
Qed.

Definition fails_with {A} (o : outcome tls_error unit) : outcome tls_error A :=
  match o with Err e => Err e | Panic x => Panic x | Cancelled => Cancelled | _ => Diverge end.

Lemma fails_bind {S A} (m : M S tls_error unit) (k : unit -> M S tls_error A) s o s' : m s = (o, s') -> o <> Ok tt ->
  bind m k s = (fails_with o, s').
Proof. intros H Ho. unfold bind. rewrite H. destruct o as [[]|e|x| |]; try reflexivity. now destruct Ho. Qed.

Lemma cb_refused t tr b m o hh s (h : @hs_data V) : crypto_ok C -> message_refused C p t tr (hs_v h) b m o -> denotes m hh ->
  exists h1, forall k, k_traffic (r_state k) = Some t -> r_transcript k = tr ++ b ->
    server_verify_cb C p k (SR_Handshake (with_hash C tr hh)) (s, h) = (o, (s, h1)).
Proof.
  intros HC (Hu & Ho & Hm) Hd. destruct m, hh; cbn [denotes] in Hd; try contradiction; cbn [with_hash server_verify_cb].
  - exists h. subst o. reflexivity.
  - exists h. subst o. reflexivity.
  - destruct Hm as (-> & v' & Hc). exists (hs_with_v h v'). intros k _ Htr. subst c. unfold on_v. cbn [fst snd]. rewrite Htr, Hc. now destruct o as [[]|e|x| |].
  - destruct Hm as (-> & sc & v' & Hsc & Hc). destruct Hd as [Hs1 Hs2]. exists (hs_with_v h v'). intros k _ Htr. destruct v as [sc0 sg]. cbn [cv_scheme cv_sig] in *.
    subst signature. assert (sc = sc0) by (apply sig_scheme_code_inj; congruence). subst sc. unfold on_v. cbn [fst snd]. rewrite Hc. now destruct o as [[]|e|x| |].
  - destruct Hm as [Hne ->]. exists h. intros k Hk Htr. cbn [f_verify f_hash]. rewrite Hd.
    destruct (C11_server_finished C k t tr verify_data HC Hk) as (vd & Hvd' & Hok & Hbad).
    unfold bind at 1, lift at 1. rewrite (proj2 Hbad) by congruence. reflexivity.
Qed.

Lemma loop_prefix t : forall ms fuel pre s st st' tail,
  takes C p t (r_transcript (rd_ks s)) st ms st' -> k_traffic (r_state (rd_ks s)) = Some t ->
  length (raw ms ++ tail) < fuel ->
  exists fuel', length tail < fuel' /\
  handshake_loop C (server_verify_cb C p) fuel (at_pos pre (raw ms ++ tail) []) (s, st) =
  handshake_loop C (server_verify_cb C p) fuel' (at_pos (pre ++ raw ms) tail []) (with_tr s (r_transcript (rd_ks s) ++ raw ms), st').
Proof.
  induction ms as [|[b m] ms IH]; intros fuel pre s st st' tail H Ht Hl.
  - inversion H; subst. exists fuel. unfold raw in *. cbn [map concat app] in *. rewrite !app_nil_r. split; [exact Hl|].
    do 2 f_equal. now destruct s as [? ? ? ? []].
  - inversion H as [|? ? ? ? hh st1 ? ? Hr Hd Hp Hcb Htk]; subst.
    assert (Hb : 0 < length b). { destruct Hr as [(len & body & Hlen & _ & ->) _]. rewrite !app_length, Hlen. lia. }
    assert (Hraw : raw ((b, m) :: ms) = b ++ raw ms) by reflexivity. rewrite Hraw in *. rewrite !app_length in Hl.
    destruct fuel; [lia|]. cbn [handshake_loop]. rewrite <- app_assoc.
    unfold bind at 1, lift at 1, pb_remaining. unfold at_pos at 1 2. cbn [pb_buf pb_pos].
    rewrite usize_sub_ok by (rewrite !app_length; lia).
    destruct (Nat.eqb_spec (length (pre ++ (b ++ raw ms ++ tail) ++ []) - length pre) 0) as [E|_]; [exfalso; rewrite !app_length in E; lia|].
    unfold bind at 1, get at 1. cbn [fst].
    replace (at_pos pre (b ++ raw ms ++ tail) []) with (at_pos pre b (raw ms ++ tail)) by (unfold at_pos; now rewrite app_nil_r).
    rewrite (read_message C (r_transcript (rd_ks s)) pre b (raw ms ++ tail) hh Hp).
    unfold bind at 1, lift at 1. cbn [fst snd].
    unfold bind at 1, on_fst at 1, set_transcript, modify. cbn [fst snd].
    fold (with_tr s (r_transcript (rd_ks s) ++ b)).
    unfold bind at 1, call_cb. cbn [fst snd]. rewrite Hcb by (try exact Ht; reflexivity).
    replace (at_pos (pre ++ b) [] (raw ms ++ tail)) with (at_pos (pre ++ b) (raw ms ++ tail) []) by (unfold at_pos; now rewrite app_nil_r).
    destruct (IH fuel (pre ++ b) (with_tr s (r_transcript (rd_ks s) ++ b)) st1 st' tail) as (fuel' & Hf' & E); [exact Htk|exact Ht|rewrite app_length; lia|].
    exists fuel'. split; [exact Hf'|]. fold (call_cb (server_verify_cb C p)). rewrite E.
    rewrite with_tr_tr. cbn [with_tr rd_ks r_with_transcript r_transcript]. now rewrite <- !app_assoc.
Qed.

Lemma loop_refused t fuel pre b m junk o s st : crypto_ok C -> message_refused C p t (r_transcript (rd_ks s)) (hs_v (snd st)) b m o ->
  k_traffic (r_state (rd_ks s)) = Some t -> length (b ++ junk) < fuel ->
  exists s' st', handshake_loop C (server_verify_cb C p) fuel (at_pos pre (b ++ junk) []) (s, st) = (o, (s', st')) /\ fst st' = fst st.
Proof.
  intros HC Hm Ht Hl. destruct st as [s0 h]. cbn [fst snd] in *. pose proof Hm as (Hu & Ho & _).
  destruct (understood_parses C b m Hu) as (hh & Hp & Hd). destruct (cb_refused t _ b m o hh s0 h HC Hm Hd) as (h1 & Hcb).
  assert (Hb : 0 < length b). { destruct Hu as [(len & body & Hlen & _ & ->) _]. rewrite !app_length, Hlen. lia. }
  rewrite app_length in Hl. destruct fuel; [lia|]. cbn [handshake_loop].
  unfold bind at 1, lift at 1, pb_remaining. unfold at_pos at 1 2. cbn [pb_buf pb_pos].
  rewrite usize_sub_ok by (rewrite !app_length; lia).
  destruct (Nat.eqb_spec (length (pre ++ (b ++ junk) ++ []) - length pre) 0) as [E|_]; [exfalso; rewrite !app_length in E; lia|].
  unfold bind at 1, get at 1. cbn [fst].
  replace (at_pos pre (b ++ junk) []) with (at_pos pre b junk) by (unfold at_pos; now rewrite app_nil_r).
  rewrite (read_message C (r_transcript (rd_ks s)) pre b junk hh Hp).
  unfold bind at 1, lift at 1. cbn [fst snd].
  unfold bind at 1, on_fst at 1, set_transcript, modify. cbn [fst snd].
  unfold bind at 1, call_cb. cbn [fst snd]. rewrite Hcb by (try exact Ht; reflexivity).
  destruct o as [[]|e|x| |]; eauto. now destruct Ho.
Qed.

(** ** A record after the ServerHello *)

Lemma content_not_ok t tr v ty content o : content_fails C p t tr v ty content o -> o <> Ok tt.
Proof. intros [| | | | |? ? ? ? ? ? ? (_ & H & _)]; try discriminate. exact H. Qed.

Lemma record_not_ok t key iv tr n v h f o : record_fails C p t key iv tr n v h f o -> o <> Ok tt.
Proof. intros [| | |? ? ? ? ? ? (_ & H & _)| | | |? ? ? ? ? ? ? H]; try discriminate; [exact H|now apply content_not_ok in H]. Qed.

Lemma later_step L Lw key iv t tr n h f rest c (hd : @hs_data V) o : crypto_ok C ->
  awaits C L key iv t tr n (h ++ f ++ rest) (cn_rd c) -> length f <= L -> framed h f -> idle C Lw c -> 24 <= Lw ->
  tx_ok (wh_tx (cn_wh c)) -> (k_counter (wst (cn_wh c)) < u64_max)%N ->
  record_fails C p t key iv tr n (hs_v hd) h f o ->
  exists c' h', process C p cfg St_ServerVerify (c, hd) = (fails_with o, (c', h')) /\
    log_of (cn_wh c') = log_of (cn_wh c) ++ alerts o.
Proof.
  intros HC (Hr & Hlen & Hstr & Hiv & Hst & Htr) Hfl Hf Hid HL Htx Hn Hrf. cbn [process].
  assert (Hbad : forall ty ct e, hd_error h = Some ty -> content_type_of (Byte.to_N ty) = Some ct -> o = Err e -> alert_for e = [] ->
    sr_decode C h (place (cn_rd c) (length f)) f (r_transcript (rd_ks (cn_rd c))) = Err e ->
    exists c' h', (rec <- on_conn (on_rd (rd_read C)) ;; handle_processing_error C (process_server_verify C p rec)) (c, hd) = (fails_with o, (c', h')) /\
      log_of (cn_wh c') = log_of (cn_wh c) ++ alerts o).
  { intros ty ct e Hh Ht -> Ha Hd. destruct (decode_fails C _ h f rest ty ct e Hr Hstr Hf Hh Ht ltac:(lia) Hd) as [r1 E].
    do 2 eexists. split; [unfold bind at 1, on_conn at 1, on_rd at 1; cbn [fst snd]; rewrite E; reflexivity|].
    cbn [alerts cn_wh]. rewrite Ha, app_nil_r. reflexivity. }
  assert (Hgood : forall ty ct rec tr', hd_error h = Some ty -> content_type_of (Byte.to_N ty) = Some ct ->
    sr_decode C h (place (cn_rd c) (length f)) f (r_transcript (rd_ks (cn_rd c))) = Ok (rec, tr') ->
    (forall r1, rd_ks r1 = r_with_transcript (rd_ks (cn_rd c)) tr' -> length (rd_buf r1) = L ->
      exists r2 st2, decrypt_record C (server_verify_cb C p) rec (r1, (St_ServerVerify, hd)) = (o, (r2, st2))) ->
    o <> Ok tt ->
    exists c' h', (rec <- on_conn (on_rd (rd_read C)) ;; handle_processing_error C (process_server_verify C p rec)) (c, hd) = (fails_with o, (c', h')) /\
      log_of (cn_wh c') = log_of (cn_wh c) ++ alerts o).
  { intros ty ct rec tr' Hh Ht Hd Hdec Ho. destruct (read_fwd C _ h f rest ty ct rec tr' Hr Hstr Hf Hh Ht ltac:(lia) Hd) as (r1 & E & _ & _ & Hb1 & Hk1).
    unfold bind at 1, on_conn at 1, on_rd at 1. cbn [fst snd]. rewrite E.
    destruct (Hdec r1 Hk1 ltac:(lia)) as (r2 & [s2 h2] & Hdec').
    assert (Hp : process_server_verify C p rec (mk_conn r1 (cn_dec c) (cn_wh c) (cn_shared c) (cn_opened c), hd) =
      (fails_with o, (mk_conn r2 (cn_dec c) (cn_wh c) (cn_shared c) (cn_opened c), h2))).
    { unfold process_server_verify. cbn [cn_rd cn_dec cn_wh cn_shared cn_opened]. rewrite Hdec'. destruct o as [[]|e|x| |]; try reflexivity. now destruct Ho. }
    destruct o as [[]|e|x| |]; [now destruct Ho|destruct (hpe_fails Lw _ _ _ _ _ HC Hp Hid HL Htx Hn) as (c' & E1 & E2); exists c', h2; split; [exact E1|exact E2]|..].
    all: do 2 eexists; split; [apply (hpe_other _ _ _ _ Hp I)|]; cbn [cn_wh alerts]; now rewrite app_nil_r. }
  assert (Hdata : hd_error h = Some ty_data ->
    (forall r1, rd_ks r1 = rd_ks (cn_rd c) -> length (rd_buf r1) = L ->
      exists r2 st2, decrypt_record C (server_verify_cb C p) (SR_AppData h (place (cn_rd c) (length f)) (cb_wrap_with_pos f (length f))) (r1, (St_ServerVerify, hd)) = (o, (r2, st2))) ->
    o <> Ok tt ->
    exists c' h', (rec <- on_conn (on_rd (rd_read C)) ;; handle_processing_error C (process_server_verify C p rec)) (c, hd) = (fails_with o, (c', h')) /\
      log_of (cn_wh c') = log_of (cn_wh c) ++ alerts o).
  { intros Hh Hdec Ho. eapply (Hgood ty_data CT_ApplicationData); [exact Hh|reflexivity| | |exact Ho].
    - rewrite (plain_decode h f _ _ ty_data Hf Hh) by discriminate. reflexivity.
    - intros r1 Hk Hb. apply Hdec; [|exact Hb]. rewrite Hk. unfold r_with_transcript. now destruct (rd_ks (cn_rd c)). }
  pose proof (place_ok (cn_rd c) (length f) ltac:(lia)) as Hpl.
  assert (Happ : forall r1, rd_ks r1 = rd_ks (cn_rd c) -> length (rd_buf r1) = L ->
    match rfc_open C key iv n h f with
    | None => decrypt_record C (server_verify_cb C p) (SR_AppData h (place (cn_rd c) (length f)) (cb_wrap_with_pos f (length f))) (r1, (St_ServerVerify, hd)) = (Err CryptoError, (r1, (St_ServerVerify, hd)))
    | Some inner =>
        decrypt_record C (server_verify_cb C p) (SR_AppData h (place (cn_rd c) (length f)) (cb_wrap_with_pos f (length f))) (r1, (St_ServerVerify, hd)) =
        match rfc_unpad inner with
        | None => ((match inner with [] => Panic PUnwrap | _ => Err Unimplemented end), (decrypted r1 (place (cn_rd c) (length f)) f inner, (St_ServerVerify, hd)))
        | Some (t, content) =>
            match content_type_of (Byte.to_N t) with
            | None => (Err InvalidRecord, (decrypted r1 (place (cn_rd c) (length f)) f inner, (St_ServerVerify, hd)))
            | Some ct => dispatch C (server_verify_cb C p) h (place (cn_rd c) (length f)) (splice f 0 inner) content ct (decrypted r1 (place (cn_rd c) (length f)) f inner, (St_ServerVerify, hd))
            end
        end
    end).
  { intros r1 Hk Hb. pose proof (decrypt_app C (server_verify_cb C p) h (place (cn_rd c) (length f)) f r1 (St_ServerVerify, hd) HC) as H.
    rewrite Hk, Hst in H. cbn [k_iv k_key k_counter] in H. specialize (H Hiv ltac:(lia)). cbv zeta in H.
    destruct (rfc_open C key iv n h f) as [inner|]; [exact (proj2 H)|exact H]. }
  inversion Hrf as [l d Hh Hal|e Hh Hal|Hh|b m junk oo Hh Hfb Hm|Hh Ho|Hh Ho|k Hh Ho|inner ty content oo Hh Ho Hu Hcf]; subst.
  - eapply (Hgood ty_alert CT_Alert); [exact Hh|reflexivity| | |discriminate].
    + rewrite (plain_decode h f _ _ ty_alert Hf Hh) by discriminate. change (content_type_of (Byte.to_N ty_alert)) with (Some CT_Alert).
      cbn iota. rewrite (alert_fwd f l d Hal). reflexivity.
    + intros r1 _ _. do 2 eexists. reflexivity.
  - eapply (Hbad ty_alert CT_Alert); [exact Hh|reflexivity|reflexivity|now destruct Hal|].
    rewrite (plain_decode h f _ _ ty_alert Hf Hh) by discriminate. change (content_type_of (Byte.to_N ty_alert)) with (Some CT_Alert).
    cbn iota. rewrite (bad_alert_fwd f e Hal). reflexivity.
  - eapply (Hbad x00 CT_Invalid); [exact Hh|reflexivity|reflexivity|reflexivity|].
    rewrite (plain_decode h f _ _ x00 Hf Hh) by discriminate. reflexivity.
  - destruct (understood_parses C b m (proj1 Hm)) as (hh & Hp & Hd).
    destruct (cb_refused t _ b m o hh St_ServerVerify hd HC Hm Hd) as (h1 & Hcb).
    eapply (Hgood ty_handshake CT_Handshake); [exact Hh|reflexivity| | |exact (proj1 (proj2 Hm))].
    + eapply (decode_message C); eauto.
    + intros r1 Hk1 _. do 2 eexists. cbn [decrypt_record]. unfold call_cb. cbn [fst snd].
      rewrite Hcb; [reflexivity| |]; rewrite Hk1; cbn [r_with_transcript r_state r_transcript]; [now rewrite Hst|reflexivity].
  - apply Hdata; [exact Hh| |discriminate]. intros r1 Hk Hb. specialize (Happ r1 Hk Hb). rewrite Ho in Happ. eauto.
  - apply Hdata; [exact Hh| |discriminate]. intros r1 Hk Hb. specialize (Happ r1 Hk Hb). rewrite Ho in Happ. do 2 eexists. exact Happ.
  - apply Hdata; [exact Hh| |discriminate]. intros r1 Hk Hb. specialize (Happ r1 Hk Hb). rewrite Ho in Happ.
    assert (Hz : rfc_unpad (repeat x00 (S k)) = None).
    { unfold rfc_unpad. assert (Hrev : forall i, rev (repeat x00 i) = repeat x00 i).
      { induction i as [|i IHi]; [reflexivity|]. cbn [repeat rev]. rewrite IHi. now rewrite <- repeat_cons. }
      rewrite Hrev. clear. induction k as [|k IHk]; [reflexivity|]. exact IHk. }
    rewrite Hz in Happ. do 2 eexists. exact Happ.
  - apply Hdata; [exact Hh| |now apply content_not_ok in Hcf]. intros r1 Hk Hb. specialize (Happ r1 Hk Hb). rewrite Ho, Hu in Happ.
    rewrite Happ. set (sd := decrypted r1 (place (cn_rd c) (length f)) f inner) in *.
    assert (Hsdk : rd_ks sd = rd_ks (cn_rd c)) by exact Hk.
    inversion Hcf as [? ? Hty|?|?|? l d Hal|? ? Hal|ms v1 b m junk ? Hms Hm]; subst.
    + assert (E : content_type_of (Byte.to_N ty) = None \/ ty = x00).
      { clear - Hty. destruct ty; cbn in *; auto; exfalso; apply Hty; auto 6. }
      destruct E as [->| ->]; [eauto|]. exfalso. clear - Hu. unfold rfc_unpad in Hu.
      destruct (drop_zeros (rev inner)) as [|x l] eqn:E; [discriminate|]. injection Hu as -> _.
      revert E. generalize (rev inner). induction l0 as [|y l0 IH]; cbn; [discriminate|]. destruct y; try discriminate. exact IH.
    + change (content_type_of (Byte.to_N ty_ccs)) with (Some CT_ChangeCipherSpec). do 2 eexists. reflexivity.
    + change (content_type_of (Byte.to_N ty_data)) with (Some CT_ApplicationData). do 2 eexists. reflexivity.
    + change (content_type_of (Byte.to_N ty_alert)) with (Some CT_Alert). cbn iota. unfold dispatch. unfold bind at 1. unfold bind at 1, lift at 1. rewrite (alert_fwd _ l d Hal).
      do 2 eexists. reflexivity.
    + change (content_type_of (Byte.to_N ty_alert)) with (Some CT_Alert). cbn iota. unfold dispatch. unfold bind at 1. unfold bind at 1, lift at 1. rewrite (bad_alert_fwd _ _ Hal).
      do 2 eexists. reflexivity.
    + change (content_type_of (Byte.to_N ty_handshake)) with (Some CT_Handshake). cbn iota. unfold dispatch.
      destruct (taken_takes t HC ms _ St_ServerVerify hd v1 Hms) as (s' & h' & Htk & Hv').
      destruct (loop_prefix t ms (S (length (raw ms ++ b ++ junk))) [] sd (St_ServerVerify, hd) (s', h') (b ++ junk)) as (fuel' & Hf' & El);
        [rewrite Hsdk; exact Htk|rewrite Hsdk, Hst; reflexivity|lia|].
      rewrite pb_new_at. unfold bind at 1. rewrite El. cbn [app].
      destruct (loop_refused t fuel' (raw ms) b m junk o (with_tr sd (r_transcript (rd_ks sd) ++ raw ms)) (s', h') HC) as (s2 & st2 & E2 & _).
      { cbn [snd with_tr rd_ks r_with_transcript r_transcript]. rewrite Hv', Hsdk. exact Hm. }
      { cbn [with_tr rd_ks r_with_transcript r_state]. rewrite Hsdk, Hst. reflexivity. }
      { exact Hf'. }
      rewrite E2. apply content_not_ok in Hcf. destruct o as [[]|e|x| |]; eauto. now destruct Hcf.
Qed.

(** ** The whole handshake *)

Lemma open_ends v v0 rbuf wbuf rx tx c0 s c h o c' h' : crypto_ok C -> cn_new C rbuf wbuf rx tx = Ok c0 -> told p cfg v v0 ->
  goes C p cfg St_ClientHello c0 (hs_new v0) s c h -> s <> St_ApplicationData ->
  process C p cfg s (c, h) = (fails_with o, (c', h')) -> o <> Ok tt -> cn_open C p cfg v c0 = (o, c').
Proof.
  intros HC Hnew Htold Hg Hs Hp Ho. destruct (cn_new_idle C rbuf wbuf rx tx c0 Hnew) as (Hid0 & _ & _ & _ & _ & Hrd0 & _).
  assert (Hhost : host_step p cfg v = (Ok tt, v0)).
  { unfold host_step, told in *. destruct (cfg_server_name cfg), (p_has_verifier p); congruence. }
  unfold cn_open. fold (host_step p cfg v). rewrite Hhost. unfold bind at 1, lift at 1.
  assert (Hb0 : between (cn_rd c0)) by (rewrite Hrd0; split; [unfold rd_wf; cbn; lia|reflexivity]).
  rewrite (goes_stops C p cfg (length wbuf) (8 + rx_size (rd_rx (cn_rd c0))) _ _ _ _ _ _ _ _ _ HC Hid0 Hb0 Hg Hs Hp);
    [|destruct o; discriminate|cbn [TermProofs.rank]; lia].
  destruct o as [[]|e|x| |]; try reflexivity. now destruct Ho.
Qed.

Lemma begun_goes wbuf tx : crypto_ok C -> length (p_random p) = 32 ->
  hello_size cfg (length (c_pub C (p_secret p))) (hash_len C) <= length wbuf -> tx_ok tx ->
  exists hello, forall v v0, told p cfg v v0 ->
    (forall rbuf rx c0, cn_new C rbuf wbuf rx tx = Ok c0 ->
       exists evs, sent_log (snd (cn_open C p cfg v c0)) = tx_log tx ++ goes_out (SpecHandshake.hello_record hello) ++ evs) /\
    (forall rbuf rx c0, cn_new C rbuf wbuf rx tx = Ok c0 -> exists c1, greeted C p cfg hello wbuf rbuf rx tx c0 v0 c1) /\
    forall rbuf rx c0 x ms n v1 rest, cn_new C rbuf wbuf rx tx = Ok c0 -> chunked rx -> x_hello x = hello ->
      begun C p (length rbuf) (stream rx) x ms n v0 v1 rest -> secrets_ok C (option_map fst (cfg_psk cfg)) (p_secret p) x ->
      exists c h, goes C p cfg St_ClientHello c0 (hs_new v0) St_ServerVerify c h /\
        awaits C (length rbuf) (x_skey x) (x_siv x) (x_server x) (x_hellos x ++ raw ms) n rest (cn_rd c) /\ hs_v h = v1 /\
        log_of (cn_wh c) = tx_log tx ++ goes_out (SpecHandshake.hello_record hello) /\ tx_ok (wh_tx (cn_wh c)) /\
        k_counter (wst (cn_wh c)) = 0%N.
Proof.
  intros HC Hrnd Hsz Htx. destruct (keys_goes C p cfg wbuf tx HC Hrnd Hsz Htx) as (hello & Hh). exists hello. intros v v0 Htold.
  destruct (Hh v v0 Htold) as (Hsent & Hgr & Hgo). split; [exact Hsent|]. split; [exact Hgr|].
  intros rbuf rx c0 x ms n v1 rest Hnew Hch Hhello (h0 & junk & rs & Hw & Hf0 & Hh0 & Hus & Hshare & Hcar & Hms & Hnf & Hlen & Hcnt & Hlt) Hsec.
  inversion Hlen as [|? ? Hlen0 Hlenr]; subst x0 l. cbn [snd] in Hlen0.
  destruct (Hgo rbuf rx c0 x h0 junk (wire_of rs ++ rest) [] Hnew Hch Hhello) as (c2 & Hg2 & Haw & Hw2 & Hlog1 & Htx2 & _); auto.
  { rewrite Hw. unfold wire_of. cbn [map concat fst snd]. now rewrite <- !app_assoc. }
  destruct (taken_takes (x_server x) HC ms (x_hellos x) St_ServerVerify (hs_begun p v0) v1 Hms) as (s' & hm & Htk & Hv).
  assert (E : s' = St_ServerVerify) by (apply (takes_no_finished C p _ _ _ _ _ _ HC Htk Hnf)). subst s'.
  change (2 ^ 64)%N with 18446744073709551616%N in Hlt. assert (Hu64 : u64_max = 18446744073709551615%N) by reflexivity.
  destruct (flight_fwd C p cfg (length rbuf) (x_skey x) (x_siv x) (x_server x) HC rs (x_hellos x) 0%N rest c2 (hs_begun p v0) ms hm Haw Hlenr Hcar)
    as (r3 & Hg3 & Haw3); [lia|exact Hnf|exact Htk|].
  do 2 eexists. split; [eapply goes_trans; [exact Hg2|exact Hg3]|]. cbn [cn_rd cn_wh]. rewrite Hcnt.
  split; [exact Haw3|]. split; [exact Hv|]. split; [rewrite <- Hhello; exact Hlog1|]. split; [exact Htx2|]. rewrite Hw2. reflexivity.
Qed.

(** ** Bytes that are no message *)

Lemma faulty_fwd tr pre bs e : faulty C bs e -> exists q, read_server_handshake C tr (at_pos pre bs []) = (Err e, q).
Proof. apply read_faulty. Qed.

Lemma loop_faulty fuel pre junk s st e : faulty C junk e -> junk <> [] -> length junk < fuel ->
  exists s', handshake_loop C (server_verify_cb C p) fuel (at_pos pre junk []) (s, st) = (Err e, s').
Proof.
  intros Hu Hne Hl. destruct fuel; [lia|]. cbn [handshake_loop].
  unfold bind at 1, lift at 1, pb_remaining. unfold at_pos at 1 2. cbn [pb_buf pb_pos].
  rewrite usize_sub_ok by (rewrite !app_length; lia).
  destruct (Nat.eqb_spec (length (pre ++ junk ++ []) - length pre) 0) as [E|_]; [exfalso; rewrite !app_length in E; destruct junk; [now apply Hne|cbn in E; lia]|].
  unfold bind at 1, get at 1. cbn [fst]. destruct (faulty_fwd (r_transcript (rd_ks s)) pre junk e Hu) as (q & ->).
  unfold bind at 1, lift at 1. eauto.
Qed.

Lemma garbled_step L Lw key iv t tr n h f rest c (hd : @hs_data V) e : crypto_ok C ->
  awaits C L key iv t tr n (h ++ f ++ rest) (cn_rd c) -> length f <= L -> framed h f -> idle C Lw c -> 24 <= Lw ->
  tx_ok (wh_tx (cn_wh c)) -> (k_counter (wst (cn_wh c)) < u64_max)%N ->
  record_garbled C p t key iv tr n (hs_v hd) h f e ->
  exists c' h', process C p cfg St_ServerVerify (c, hd) = (Err e, (c', h')) /\
    log_of (cn_wh c') = log_of (cn_wh c) ++ (if Byte.eqb (List.hd x00 h) ty_data then alert_for e else []).
Proof.
  intros HC (Hr & Hlen & Hstr & Hiv & Hst & Htr) Hfl Hf Hid HL Htx Hn Hrf. cbn [process].
  destruct Hrf as [e Hh Hu|inner ms v1 junk e Hh Ho Hun Hms Hne Hu].
  - destruct (faulty_fwd (r_transcript (rd_ks (cn_rd c))) [] f e Hu) as (q & E).
    destruct (decode_fails C _ h f rest ty_handshake CT_Handshake e Hr Hstr Hf Hh eq_refl ltac:(lia)) as [r1 Er].
    { rewrite (plain_decode h f _ _ ty_handshake Hf Hh) by discriminate. change (content_type_of (Byte.to_N ty_handshake)) with (Some CT_Handshake). cbn iota.
      rewrite pb_new_at, E. reflexivity. }
    do 2 eexists. split; [unfold bind at 1, on_conn at 1, on_rd at 1; cbn [fst snd]; rewrite Er; reflexivity|].
    destruct h as [|t0 h]; [discriminate|]. injection Hh as ->. cbn [List.hd cn_wh]. symmetry. apply app_nil_r.
  - destruct (read_fwd C _ h f rest ty_data CT_ApplicationData (SR_AppData h (place (cn_rd c) (length f)) (cb_wrap_with_pos f (length f))) (r_transcript (rd_ks (cn_rd c))) Hr Hstr Hf Hh eq_refl ltac:(lia)) as (r1 & E & _ & _ & Hb1 & Hk1).
    { rewrite (plain_decode h f _ _ ty_data Hf Hh) by discriminate. reflexivity. }
    assert (Hk : rd_ks r1 = rd_ks (cn_rd c)) by (rewrite Hk1; unfold r_with_transcript; now destruct (rd_ks (cn_rd c))).
    pose proof (place_ok (cn_rd c) (length f) ltac:(lia)) as Hpl.
    pose proof (decrypt_app C (server_verify_cb C p) h (place (cn_rd c) (length f)) f r1 (St_ServerVerify, hd) HC) as H.
    rewrite Hk, Hst in H. cbn [k_iv k_key k_counter] in H. specialize (H Hiv ltac:(lia)). cbv zeta in H. rewrite Ho, Hun in H. destruct H as [_ H].
    change (content_type_of (Byte.to_N ty_handshake)) with (Some CT_Handshake) in H. cbn iota in H. unfold dispatch in H.
    set (sd := decrypted r1 (place (cn_rd c) (length f)) f inner) in *.
    assert (Hsdk : rd_ks sd = rd_ks (cn_rd c)) by exact Hk. subst tr.
    destruct (taken_takes t HC ms _ St_ServerVerify hd v1 Hms) as (s' & h' & Htk & Hv').
    destruct (loop_prefix t ms (S (length (raw ms ++ junk))) [] sd (St_ServerVerify, hd) (s', h') junk) as (fuel' & Hf' & El);
      [rewrite Hsdk; exact Htk|rewrite Hsdk, Hst; reflexivity|lia|].
    destruct (loop_faulty fuel' ([] ++ raw ms) junk (with_tr sd (r_transcript (rd_ks sd) ++ raw ms)) (s', h') e Hu Hne Hf') as ([s2 [s3 h3]] & E2).
    rewrite pb_new_at in H. unfold bind at 1 in H. rewrite El, E2 in H.
    unfold bind at 1, on_conn at 1, on_rd at 1. cbn [fst snd]. rewrite E.
    assert (Hp : process_server_verify C p (SR_AppData h (place (cn_rd c) (length f)) (cb_wrap_with_pos f (length f))) (mk_conn r1 (cn_dec c) (cn_wh c) (cn_shared c) (cn_opened c), hd) =
      (Err e, (mk_conn s2 (cn_dec c) (cn_wh c) (cn_shared c) (cn_opened c), h3))).
    { unfold process_server_verify. cbn [cn_rd cn_dec cn_wh cn_shared cn_opened]. rewrite H. reflexivity. }
    destruct (hpe_fails Lw _ _ _ _ _ HC Hp Hid HL Htx Hn) as (c' & E1 & E3). exists c', h3. split; [exact E1|].
    destruct h as [|t0 h]; [discriminate|]. injection Hh as ->. exact E3.
Qed.

(** ** How the stream can go wrong *)

Theorem failures wbuf tx v v0 : crypto_ok C -> length (p_random p) = 32 ->
  hello_size cfg (length (c_pub C (p_secret p))) (hash_len C) <= length wbuf -> tx_ok tx -> told p cfg v v0 ->
  exists hello,
    (forall rbuf rx c0, cn_new C rbuf wbuf rx tx = Ok c0 ->
       exists evs, sent_log (snd (cn_open C p cfg v c0)) = tx_log tx ++ goes_out (SpecHandshake.hello_record hello) ++ evs) /\
    forall rbuf rx c0, cn_new C rbuf wbuf rx tx = Ok c0 -> chunked rx ->
      (forall e, unreadable (length rbuf) (stream rx) e ->
         exists c, cn_open C p cfg v c0 = (Err e, c) /\ sent_log c = tx_log tx ++ goes_out (SpecHandshake.hello_record hello)) /\
      (forall h f rest e, stream rx = h ++ f ++ rest -> framed h f -> length f <= length rbuf -> first_fails C (p_secret p) h f e ->
         exists c, cn_open C p cfg v c0 = (Err e, c) /\ sent_log c = tx_log tx ++ goes_out (SpecHandshake.hello_record hello)) /\
      forall x ms n v1 rest, x_hello x = hello -> begun C p (length rbuf) (stream rx) x ms n v0 v1 rest ->
        secrets_ok C (option_map fst (cfg_psk cfg)) (p_secret p) x ->
        (forall e, unreadable (length rbuf) rest e ->
           exists c, cn_open C p cfg v c0 = (Err e, c) /\ sent_log c = tx_log tx ++ goes_out (SpecHandshake.hello_record hello)) /\
        forall h f rest', rest = h ++ f ++ rest' -> framed h f -> length f <= length rbuf ->
          (forall o, record_fails C p (x_server x) (x_skey x) (x_siv x) (x_hellos x ++ raw ms) n v1 h f o ->
             exists c, cn_open C p cfg v c0 = (o, c) /\ sent_log c = tx_log tx ++ goes_out (SpecHandshake.hello_record hello) ++ alerts o) /\
          (forall e, record_garbled C p (x_server x) (x_skey x) (x_siv x) (x_hellos x ++ raw ms) n v1 h f e ->
             exists c, cn_open C p cfg v c0 = (Err e, c) /\
               sent_log c = tx_log tx ++ goes_out (SpecHandshake.hello_record hello) ++ (if Byte.eqb (List.hd x00 h) ty_data then alert_for e else [])).
Proof.
  intros HC Hrnd Hsz Htx Htold. destruct (begun_goes wbuf tx HC Hrnd Hsz Htx) as (hello & Hh). exists hello.
  destruct (Hh v v0 Htold) as (Hsent & Hgr & Hgo). split; [exact Hsent|]. clear Hh Hsent. intros rbuf rx c0 Hnew Hch.
  destruct (cn_new_idle C rbuf wbuf rx tx c0 Hnew) as (Hid0 & _ & _ & _ & _ & _ & _ & Hwl).
  destruct (Hgr rbuf rx c0 Hnew) as (c1 & Hg1 & Hid1 & Hp1 & Hd1 & Hb1 & Hrx1 & Hn1 & Htr1 & Hlog1 & Htx1). clear Hgr.
  assert (Hr1 : ready (cn_rd c1)) by (split; [exact Hp1|]; split; [lia|congruence]).
  assert (Hu64 : u64_max = 18446744073709551615%N) by reflexivity.
  split; [|split].
  - intros e Hun. destruct (unreadable_fwd C (cn_rd c1) (stream rx) e Hr1 ltac:(now rewrite Hrx1) ltac:(now rewrite Hb1)) as [s' E].
    eexists. split.
    + eapply (open_ends v v0 rbuf wbuf rx tx c0 St_ServerHello c1 _ (Err e)); eauto; try discriminate.
      cbn [process]. unfold bind at 1, on_conn at 1, on_rd at 1. cbn [fst snd]. rewrite E. reflexivity.
    + exact Hlog1.
  - intros h f rest e Hs Hf Hl Hff.
    destruct (first_step (length wbuf) c1 (hs_set_secret (Some (p_secret p)) (hs_new v0)) h f rest e) as (c' & h' & Hp & Hl'); auto; try lia; [congruence| |].
    { rewrite Hb1. exact Hl. }
    exists c'. split; [eapply (open_ends v v0 rbuf wbuf rx tx c0 St_ServerHello c1 _ (Err e)); eauto; discriminate|].
    unfold sent_log. fold (log_of (cn_wh c')). congruence.
  - clear c1 Hg1 Hid1 Hp1 Hd1 Hb1 Hrx1 Hn1 Htr1 Hlog1 Htx1 Hr1. intros x ms n v1 rest Hhello Hbg Hsec.
    destruct (Hgo rbuf rx c0 x ms n v1 rest Hnew Hch Hhello Hbg Hsec) as (c & hm & Hg & Haw & Hv & Hlog & Htx' & Hcnt).
    pose proof (goes_idle C p cfg (length wbuf) _ _ _ _ _ _ HC Hid0 Hg) as Hid. split.
    + intros e Hun. destruct Haw as (A1 & A2 & A3 & _).
      destruct (unreadable_fwd C (cn_rd c) rest e A1 A3 ltac:(now rewrite A2)) as [s' E].
      eexists. split.
      * eapply (open_ends v v0 rbuf wbuf rx tx c0 St_ServerVerify c hm (Err e)); eauto; try discriminate.
        cbn [process]. unfold bind at 1, on_conn at 1, on_rd at 1. cbn [fst snd]. rewrite E. reflexivity.
      * exact Hlog.
    + intros h f rest' -> Hf Hl. subst v1. split.
      * intros o Hrf. destruct (later_step (length rbuf) (length wbuf) _ _ _ _ _ _ _ _ c hm o HC Haw Hl Hf Hid ltac:(lia) Htx' ltac:(lia) Hrf) as (c' & h' & Hp & Hl').
        exists c'. split; [eapply (open_ends v v0 rbuf wbuf rx tx c0 St_ServerVerify c hm o); eauto; [discriminate|now apply record_not_ok in Hrf]|].
        unfold sent_log. fold (log_of (cn_wh c')). rewrite Hl', Hlog. now rewrite <- app_assoc.
      * intros e Hrf. destruct (garbled_step (length rbuf) (length wbuf) _ _ _ _ _ _ _ _ c hm e HC Haw Hl Hf Hid ltac:(lia) Htx' ltac:(lia) Hrf) as (c' & h' & Hp & Hl').
        exists c'. split; [eapply (open_ends v v0 rbuf wbuf rx tx c0 St_ServerVerify c hm (Err e)); eauto; discriminate|].
        unfold sent_log. fold (log_of (cn_wh c')). rewrite Hl', Hlog. now rewrite <- app_assoc.
Qed.
End Fails.
