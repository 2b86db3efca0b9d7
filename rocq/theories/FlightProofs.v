(** * The server's flight, record by record *)
From Coq Require Import String List NArith Arith Bool Lia ZArith.
From Coq.Strings Require Import Byte.
From Coq Require Import ZifyBool ZifyNat ZifyN.
From Verif Require Import Base ParseBuffer Buffer Codes Extensions Crypto KeySchedule Config Handshake Record WriteBuffer
  Transport RecordReader ReadBuffer Connection Api BaseProofs ParseProofs SpecWire SpecCodes SpecMessages WireProofs ExtProofs SpecKeys
  SpecRecord SpecRead KeyProofs RecordProofs SpecSend SendProofs SpecHello PropKeys HsWrite HsProofs ConnProofs FrameProofs DecryptProofs
  FlagProofs ReadProofs RecvProofs SpecHandshake AcceptProofs SpecComplete MessageProofs.
Import ListNotations.
Local Open Scope list_scope.

Section Flight.
Context {V : Type} (C : crypto) (p : provider V).
Notation sv := (hs_state * @hs_data V)%type.

(** The messages [ms] passed through the closure of [process_server_verify], one after the
    other, without an error; [t] is the server's traffic secret, [tr] the transcript before. *)
Inductive absorb (t : bytes) : bytes -> sv -> list (bytes * smsg) -> sv -> Prop :=
| ab_nil tr st : absorb t tr st [] st
| ab_cons tr st b m hh k st1 ms st2 :
    understood C b m -> denotes m hh -> (forall f, hh = SH_Finished f -> f_hash f = Some (c_hash C tr)) ->
    k_traffic (r_state k) = Some t -> r_transcript k = tr ++ b ->
    server_verify_cb C p k (SR_Handshake hh) st = (Ok tt, st1) ->
    absorb t (tr ++ b) st1 ms st2 -> absorb t tr st ((b, m) :: ms) st2.

Lemma absorb_app t tr st ms1 st1 ms2 st2 : absorb t tr st ms1 st1 -> absorb t (tr ++ raw ms1) st1 ms2 st2 ->
  absorb t tr st (ms1 ++ ms2) st2.
Proof.
  intros H1 H2. induction H1 as [tr st|tr st b m hh k st1 ms st2' H1 H3 H4 H5 H6 H7 H8 IH].
  - cbn in H2. now rewrite app_nil_r in H2.
  - cbn [app]. econstructor; eauto. apply IH. unfold raw in *. cbn [map concat fst] in H2. now rewrite <- app_assoc.
Qed.

(** ** The messages in one protected record *)

Lemma pair_inv {A B} (a c : A) (b d : B) : (a, b) = (c, d) -> a = c /\ b = d.
Proof. intros H. inversion H. auto. Qed.

Lemma loop_absorb t : forall fuel pre bs s st s' st',
  handshake_loop C (server_verify_cb C p) fuel (at_pos pre bs []) (s, st) = (Ok tt, (s', st')) ->
  k_traffic (r_state (rd_ks s)) = Some t ->
  exists ms, bs = raw ms /\ absorb t (r_transcript (rd_ks s)) st ms st' /\
    s' = with_tr s (r_transcript (rd_ks s) ++ raw ms).
Proof.
  induction fuel as [|fuel IH]; intros pre bs s st s' st' H Ht; cbn [handshake_loop] in H;
    apply bind_ok in H as (r & st0 & Hr & H); apply lift_ok in Hr as [Hr ->];
    (assert (Er : r = length bs);
     [unfold pb_remaining, at_pos in Hr; cbn [pb_buf pb_pos] in Hr; rewrite app_nil_r in Hr; rewrite usize_sub_ok in Hr by (rewrite app_length; lia);
      injection Hr as <-; rewrite app_length; lia|]).
  - subst r. destruct bs as [|b bs]; cbn [length Nat.eqb] in H; [|discriminate].
    unfold ret in H. apply pair_inv in H as [_ H]. apply pair_inv in H as [<- <-].
    exists []. split; [reflexivity|]. split; [constructor|]. unfold raw. cbn. rewrite app_nil_r. now destruct s as [? ? ? ? []].
  - subst r. destruct (Nat.eqb_spec (length bs) 0) as [El|El].
    { destruct bs; [|discriminate]. unfold ret in H. apply pair_inv in H as [_ H]. apply pair_inv in H as [<- <-].
      exists []. split; [reflexivity|]. split; [constructor|]. unfold raw. cbn. rewrite app_nil_r. now destruct s as [? ? ? ? []]. }
    unfold bind at 1, get at 1 in H. cbn [fst] in H.
    destruct (read_server_handshake C (r_transcript (rd_ks s)) (at_pos pre bs [])) as [o p'] eqn:E.
    apply bind_ok in H as ([hh tr'] & st0 & Ho & H). apply lift_ok in Ho as [-> ->].
    apply read_understood in E as (x & y & sm & -> & -> & Hra & Hde & -> & Hf).
    cbn [fst snd] in H. unfold bind at 1, on_fst at 1, set_transcript, modify in H. cbn [fst snd] in H.
    fold (with_tr s (r_transcript (rd_ks s) ++ x)) in H.
    apply bind_ok in H as (u & [s1 st1] & Hc & H). destruct u. unfold call_cb in Hc. cbn [fst snd] in Hc.
    destruct (server_verify_cb C p _ (SR_Handshake hh) st) as [o2 st2] eqn:Ecb.
    apply pair_inv in Hc as [-> Hc]. apply pair_inv in Hc as [<- <-].
    apply IH in H; [|exact Ht]. destruct H as (ms & -> & Ha & ->).
    exists ((x, sm) :: ms). split; [reflexivity|]. split.
    + econstructor; [exact Hra|exact Hde|exact Hf| | |exact Ecb|exact Ha]; [exact Ht|reflexivity].
    + rewrite with_tr_tr. unfold raw. cbn [map concat fst with_tr rd_ks r_with_transcript r_transcript]. now rewrite app_assoc.
Qed.

(** ** One record *)

Lemma content_type_ccs t : content_type_of (Byte.to_N t) = Some CT_ChangeCipherSpec -> t = ty_ccs.
Proof. destruct t; try discriminate. reflexivity. Qed.

(** A record that decodes. *)
Lemma sr_decode_inv h off f tr rec tr' : sr_decode C h off f tr = Ok (rec, tr') ->
  (hd_error h = Some ty_ccs /\ rec = SR_ChangeCipherSpec /\ tr' = tr) \/
  (hd_error h = Some ty_alert /\ exists l d, rec = SR_Alert l d) \/
  (hd_error h = Some ty_data /\ rec = SR_AppData h off (cb_wrap_with_pos f (length f)) /\ tr' = tr) \/
  (hd_error h = Some ty_handshake /\ exists x y m hh, f = x ++ y /\ understood C x m /\ denotes m hh /\
     rec = SR_Handshake hh /\ tr' = tr ++ x /\ (forall f, hh = SH_Finished f -> f_hash f = Some (c_hash C tr))).
Proof.
  intros H. unfold sr_decode in H. apply obind_ok in H as (n & _ & H).
  destruct (negb (n =? length f)); [discriminate|].
  apply obind_ok in H as (t & Ht & H). unfold hdr_content_type in Ht.
  apply obind_ok in Ht as (b & Hb & Ht).
  assert (Hh : hd_error h = Some b) by (destruct h; [discriminate|unfold index in Hb; cbn in Hb; now inversion Hb]).
  destruct (content_type_of (Byte.to_N b)) as [t0|] eqn:Et; [|discriminate].
  cbn [unwrap] in Ht. assert (t0 = t) by congruence. subst t0. clear Ht. rewrite Hh. destruct t.
  - discriminate.
  - left. apply content_type_ccs in Et as ->. split; [reflexivity|]. split; congruence.
  - right. left. apply content_type_alert in Et as ->. split; [reflexivity|].
    apply obind_ok in H as (ld & _ & H). exists (fst ld), (snd ld). congruence.
  - do 3 right. apply content_type_hs in Et as ->. split; [reflexivity|].
    apply obind_ok in H as ([hh tr1] & H1 & H). cbn [fst snd] in H.
    destruct (read_server_handshake C tr (pb_new f)) as [o p'] eqn:E. cbn [fst] in H1. subst o. rewrite pb_new_at in E.
    apply read_understood in E as (x & y & sm & -> & _ & Hra & Hde & -> & Hf).
    exists x, y, sm, hh. split; [reflexivity|]. split; [exact Hra|]. split; [exact Hde|]. split; [congruence|]. split; [congruence|exact Hf].
  - right. right. left. apply content_type_data in Et as ->. split; [reflexivity|]. split; congruence.
Qed.

Lemma verify_record t s st rec r1 r2 st' : crypto_ok C -> between s -> length (k_iv (r_state (rd_ks s))) = iv_len C ->
  k_traffic (r_state (rd_ks s)) = Some t ->
  rd_read C s = (Ok rec, r1) ->
  decrypt_record C (server_verify_cb C p) rec (r1, st) = (Ok tt, (r2, st')) ->
  let key := k_key (r_state (rd_ks s)) in let iv := k_iv (r_state (rd_ks s)) in
  exists h f ms, stream (rd_rx s) = h ++ f ++ stream (rd_rx r2) /\ between r2 /\ rx_size (rd_rx r2) + 5 <= rx_size (rd_rx s) /\
    (forall rs l, carried C key iv (k_counter (r_state (rd_ks r2))) rs l ->
       carried C key iv (k_counter (r_state (rd_ks s))) ((h, f) :: rs) (map fst ms ++ l)) /\
    absorb t (r_transcript (rd_ks s)) st ms st' /\ r_transcript (rd_ks r2) = r_transcript (rd_ks s) ++ raw ms /\
    k_key (r_state (rd_ks r2)) = key /\ k_iv (r_state (rd_ks r2)) = iv /\ k_traffic (r_state (rd_ks r2)) = Some t /\
    k_counter (r_state (rd_ks r2)) = (k_counter (r_state (rd_ks s)) + match hd_error h with Some b => if Byte.eqb b ty_data then 1 else 0 | None => 0 end)%N /\
    length f <= length (rd_buf s) /\ length (rd_buf r2) = length (rd_buf s) /\
    (k_counter (r_state (rd_ks s)) <= u64_max -> k_counter (r_state (rd_ks r2)) <= u64_max)%N.
Proof.
  intros HC Hb Hiv Ht Hrd Hd key iv.
  pose proof (between_read C s rec r1 Hb Hrd) as Hb1.
  pose proof (stays_decrypt C (server_verify_cb C p) rec (r1, st)) as Hst. rewrite Hd in Hst. cbn [fst snd] in Hst.
  pose proof (between_pos _ _ Hst Hb1) as Hb2. destruct Hst as (_ & _ & Hrx & Hbl1).
  destruct (rd_read_any C s _ r1 (proj1 Hb) Hrd) as (_ & Hbl & _ & [[Hf _]|(h & f & Hc & Hdec)]); [contradiction|].
  assert (Hlf : length f <= length (rd_buf s)).
  { rewrite <- Hbl. destruct Hc as (_ & _ & Hl0 & _). destruct Hb1 as [Hw _]. unfold rd_wf in Hw. lia. }
  assert (Hbl2 : length (rd_buf r2) = length (rd_buf s)) by congruence.
  destruct Hc as (Hkt & Hfr & Hl & Hsub & _ & Hsz & x & Hx1 & Hx2).
  unfold pend in Hx2. rewrite (proj2 Hb), (proj2 Hb1) in Hx2. unfold sub in Hx2. cbn [firstn app] in Hx2. rewrite app_nil_r in Hx2. subst x.
  destruct (sr_decode C h (rd_decoded r1 - length f) f (r_transcript (rd_ks s))) as [[rec0 tr1]|e|y| |] eqn:Ed; try contradiction; [|destruct Hdec; discriminate].
  destruct Hdec as [Hrec Hks]. cbn [fst snd] in *. assert (rec0 = rec) by congruence. subst rec0. clear Hrec.
  exists h, f. apply sr_decode_inv in Ed as [(Hh & -> & ->)|[(Hh & l & d & ->)|[(Hh & -> & ->)|(Hh & y & junk & m & hh & -> & Hra & Hde & -> & -> & Hfh)]]].
  - (* change_cipher_spec *)
    cbn in Hd. apply pair_inv in Hd as [_ Hd]. apply pair_inv in Hd as [<- <-]. exists [].
    split; [congruence|]. split; [exact Hb1|]. split; [exact Hsz|].
    rewrite Hks. cbn [r_with_transcript r_state r_transcript]. unfold raw. cbn [map concat app]. rewrite app_nil_r.
    split; [intros rs l Hl1; now constructor|]. split; [constructor|]. rewrite Hh. cbn. rewrite N.add_0_r. auto 10.
  - (* alert *) cbn in Hd. discriminate.
  - (* protected *)
    assert (Hoff : rd_decoded r1 - length f + length f <= length (rd_buf r1)) by (destruct Hb1 as [Hw _]; unfold rd_wf in Hw; lia).
    pose proof (decrypt_app C (server_verify_cb C p) h (rd_decoded r1 - length f) f r1 st HC) as Happ.
    rewrite Hks in Happ. cbn [r_with_transcript r_state] in Happ. specialize (Happ Hiv Hoff). cbv zeta in Happ.
    fold key iv in Happ.
    destruct (rfc_open C key iv (k_counter (r_state (rd_ks s))) h f) as [inner|] eqn:Eo; [|rewrite Happ in Hd; discriminate].
    destruct Happ as [Hlen Happ]. rewrite Happ in Hd. clear Happ.
    destruct (rfc_unpad inner) as [[ty ct]|] eqn:Eu; [|destruct inner; discriminate].
    destruct (content_type_of (Byte.to_N ty)) as [cty|] eqn:Ect; [|discriminate].
    set (sd := decrypted r1 (rd_decoded r1 - length f) f inner) in *.
    assert (Hsdk : rd_ks sd = rd_ks s).
    { unfold sd, decrypted, with_buf. cbn [rd_ks]. rewrite Hks. unfold r_with_transcript. now destruct (rd_ks s). }
    unfold dispatch in Hd. destruct cty; try discriminate.
    + (* an alert *) exfalso. apply bind_ok in Hd as (u & st1 & Hd & _). apply bind_ok in Hd as (ld & st2 & _ & Hd). discriminate.
    + apply content_type_hs in Ect as ->. apply bind_ok in Hd as (u & [s3 st3] & Hd & Hi). destruct u.
      rewrite pb_new_at in Hd. apply (loop_absorb t) in Hd; [|rewrite Hsdk; exact Ht].
      destruct Hd as (ms & -> & Ha & ->). rewrite Hsdk in *.
      unfold on_fst, rd_increment, bind at 1, get at 1 in Hi. cbn [fst snd] in Hi.
      unfold bind, lift, put in Hi. cbn [with_tr rd_ks r_with_transcript r_state] in Hi. rewrite Hsdk in Hi.
      unfold increment_counter in Hi. destruct (k_counter (r_state (rd_ks s)) <? u64_max)%N eqn:Ecnt; [|discriminate].
      apply pair_inv in Hi as [_ Hi]. apply pair_inv in Hi as [<- <-]. cbn [rd_rx rd_ks r_with_state r_state r_transcript k_counter k_key k_iv k_traffic] in *.
      exists ms. split; [rewrite Hrx; exact Hx1|]. split; [exact Hb2|]. split; [rewrite Hrx; exact Hsz|].
      split; [|split; [exact Ha|]; rewrite Hh; change (Byte.eqb ty_data ty_data) with true; repeat (split; [reflexivity || assumption|]); intros _; lia].
      intros rs l Hcar. eapply ca_sealed; eauto.
  - (* a message in the clear *)
    cbn [decrypt_record] in Hd. unfold call_cb in Hd. cbn [fst snd] in Hd.
    destruct (server_verify_cb C p (rd_ks r1) (SR_Handshake hh) st) as [o2 st2] eqn:Ecb.
    apply pair_inv in Hd as [-> Hd]. apply pair_inv in Hd as [<- <-]. exists [(y, m)].
    split; [exact Hx1|]. split; [exact Hb1|]. split; [exact Hsz|].
    rewrite Hks. cbn [r_with_transcript r_state r_transcript]. unfold raw. cbn [map concat app fst]. rewrite app_nil_r.
    split; [intros rs l Hl1; now constructor|]. split; [|rewrite Hh; change (Byte.eqb ty_handshake ty_data) with false; cbv iota; rewrite N.add_0_r; auto 10].
    econstructor; [exact Hra|exact Hde|exact Hfh| | |exact Ecb|constructor]; rewrite Hks; [exact Ht|reflexivity].
Qed.

(** ** What the messages did *)

Definition hs_with_v (h : @hs_data V) (v : V) : @hs_data V := mk_hs (hs_traffic h) (hs_secret h) (hs_certreq h) v.

Lemma cb_step t tr b m hh k s h s1 h1 : crypto_ok C -> denotes m hh -> understood C b m ->
  (forall f, hh = SH_Finished f -> f_hash f = Some (c_hash C tr)) ->
  k_traffic (r_state k) = Some t -> r_transcript k = tr ++ b ->
  server_verify_cb C p k (SR_Handshake hh) (s, h) = (Ok tt, (s1, h1)) ->
  in_flight m /\
  match m with
  | M_Finished v => rfc_verify_data C t tr = Some v /\
      match hs_certreq h with
      | Some _ => s1 = St_ClientCert /\ h1 = h
      | None => s1 = St_ClientFinished /\ h1 = hs_set_traffic (Some (tr ++ b)) h
      end
  | M_CertificateRequest ctx _ => s1 = s /\ h1 = hs_set_certreq (Some ctx) h
  | M_Certificate ctx raw certs => s1 = s /\ exists v, h1 = hs_with_v h v /\
      if p_has_verifier p then p_verify_cert p (tr ++ b) (mk_cert raw ctx (map CE_X509 certs)) (hs_v h) = (Ok tt, v) else v = hs_v h
  | M_CertificateVerify s0 sg => s1 = s /\ exists v scheme, h1 = hs_with_v h v /\ s0 = sig_scheme_code scheme /\
      if p_has_verifier p then p_verify_sig p (mk_cv scheme sg) (hs_v h) = (Ok tt, v) else v = hs_v h
  | _ => s1 = s /\ h1 = h
  end.
Proof.
  intros HC Hd Hra Hf Ht Htr H. unfold server_verify_cb in H.
  destruct m, hh; cbn [denotes] in Hd; try contradiction; try discriminate; (split; [exact I|]).
  - unfold ret in H. apply pair_inv in H as [_ H]. apply pair_inv in H as [<- <-]. auto.
  - subst c. destruct (p_has_verifier p).
    + unfold on_v in H. cbn [fst snd] in H. rewrite Htr in H. destruct (p_verify_cert p _ _ _) as [o v] eqn:E.
      apply pair_inv in H as [-> H]. apply pair_inv in H as [<- <-]. split; [reflexivity|]. exists v. auto.
    + unfold ret in H. apply pair_inv in H as [_ H]. apply pair_inv in H as [<- <-]. split; [reflexivity|].
      exists (hs_v h). split; [now destruct h|reflexivity].
  - subst context0. unfold bind, lift, mod_sv, modify in H. destruct (cert_request_try_from context) eqn:E; try discriminate.
    unfold cert_request_try_from in E. destruct (length context <=? 256); [|discriminate]. injection E as <-.
    apply pair_inv in H as [_ H]. cbn [fst snd] in H. apply pair_inv in H as [<- <-]. auto.
  - destruct Hd as [<- <-]. destruct v as [sc sg]. cbn [cv_scheme cv_sig]. destruct (p_has_verifier p).
    + unfold on_v in H. cbn [fst snd] in H. destruct (p_verify_sig p _ _) as [o v] eqn:E.
      apply pair_inv in H as [-> H]. apply pair_inv in H as [<- <-]. split; [reflexivity|]. exists v, sc. auto.
    + unfold ret in H. apply pair_inv in H as [_ H]. apply pair_inv in H as [<- <-]. split; [reflexivity|].
      exists (hs_v h), sc. split; [now destruct h|auto].
  - rewrite (Hf f eq_refl), Hd in H. destruct (C11_server_finished C k t tr verify_data HC Ht) as (vd & Hvd & Hok & _).
    unfold bind at 1, lift at 1 in H. destruct (verify_server_finished _ _ _ _) as [[]| | | |]; try discriminate.
    rewrite (proj1 Hok eq_refl), Hvd. split; [reflexivity|]. cbn [negb] in H.
    unfold bind, get, mod_sv, set_sv, modify in H. cbn [fst snd] in H. destruct (hs_certreq h).
    + apply pair_inv in H as [_ H]. cbn [fst snd] in H. apply pair_inv in H as [<- <-]. auto.
    + apply pair_inv in H as [_ H]. cbn [fst snd] in H. apply pair_inv in H as [<- <-]. rewrite Htr. auto.
Qed.

Lemma absorb_reads t tr st ms st' : crypto_ok C -> absorb t tr st ms st' ->
  Forall (fun m => understood C (fst m) (snd m) /\ in_flight (snd m)) ms /\
  (forall pre b v post, ms = pre ++ (b, M_Finished v) :: post -> rfc_verify_data C t (tr ++ raw pre) = Some v) /\
  (p_has_verifier p = true -> accepts_all p tr ms (hs_v (snd st)) (hs_v (snd st'))) /\
  (p_has_verifier p = false -> hs_v (snd st') = hs_v (snd st)).
Proof.
  intros HC H. induction H as [tr st|tr [s h] b m hh k [s1 h1] ms st2 H1 H3 H4 H5 H6 H7 H8 IH].
  - split; [constructor|]. split; [intros [|x pre] b v post E; discriminate|]. split; [constructor|auto].
  - destruct (cb_step t tr b m hh k s h s1 h1 HC H3 H1 H4 H5 H6 H7) as [Hin Hm].
    destruct IH as (I1 & I2 & I3 & I4). cbn [fst snd] in *.
    split; [constructor; auto|]. split; [|split].
    + intros [|x pre] b0 v post E; cbn [app] in E.
      * injection E as -> -> _. unfold raw. cbn [map concat]. rewrite app_nil_r. apply Hm.
      * injection E as <- E. unfold raw in *. cbn [map concat fst]. rewrite app_assoc. eapply I2. exact E.
    + intros Hv. specialize (I3 Hv). rewrite Hv in Hm. destruct m; try contradiction.
      * destruct Hm as [_ ->]. now apply aa_other.
      * destruct Hm as (_ & v & -> & Hm). eapply aa_cert; [exact Hm|exact I3].
      * destruct Hm as [_ ->]. now apply aa_other.
      * destruct Hm as (_ & v & sc & -> & -> & Hm). eapply aa_verify; [exact Hm|exact I3].
      * apply aa_other; [exact I|]. destruct Hm as [_ Hm]. destruct (hs_certreq h); destruct Hm as [_ ->]; exact I3.
    + intros Hv. rewrite (I4 Hv). rewrite Hv in Hm. destruct m; try contradiction.
      * now destruct Hm as [_ ->].
      * now destruct Hm as (_ & v & -> & ->).
      * now destruct Hm as [_ ->].
      * now destruct Hm as (_ & v & sc & -> & _ & ->).
      * destruct Hm as [_ Hm]. destruct (hs_certreq h); now destruct Hm as [_ ->].
Qed.

Definition no_finished (ms : list (bytes * smsg)) : Prop := ~ exists m, In m ms /\ is_finished (snd m).

Lemma requests_cons b m ms : requests ((b, m) :: ms) =
  match m with M_CertificateRequest ctx _ => [ctx] | _ => [] end ++ requests ms.
Proof. reflexivity. Qed.

Lemma absorb_state t tr st ms st' : crypto_ok C -> absorb t tr st ms st' ->
  hs_secret (snd st') = hs_secret (snd st) /\
  hs_certreq (snd st') = match rev (requests ms) with r :: _ => Some r | [] => hs_certreq (snd st) end /\
  ((no_finished ms /\ fst st' = fst st /\ hs_traffic (snd st') = hs_traffic (snd st)) \/
   exists before b v after, ms = before ++ (b, M_Finished v) :: after /\ no_finished after /\
     (if match hs_certreq (snd st), requests before with None, [] => true | _, _ => false end
      then fst st' = St_ClientFinished /\ hs_traffic (snd st') = Some (tr ++ raw before ++ b)
      else fst st' = St_ClientCert)).
Proof.
  intros HC H. induction H as [tr st|tr [s h] b m hh k [s1 h1] ms [s2 h2] H1 H3 H4 H5 H6 H7 H8 IH].
  - split; [reflexivity|]. split; [reflexivity|]. left. split; [|auto]. intros (m & [] & _).
  - destruct (cb_step t tr b m hh k s h s1 h1 HC H3 H1 H4 H5 H6 H7) as [Hin Hm].
    destruct IH as (I0 & I1 & I2). cbn [fst snd] in *.
    assert (Hf : match m with M_Finished _ => True | _ => s1 = s /\ hs_traffic h1 = hs_traffic h end).
    { destruct m; try contradiction; auto.
      - now destruct Hm as [-> ->].
      - now destruct Hm as (-> & v & -> & _).
      - now destruct Hm as [-> ->].
      - now destruct Hm as (-> & v & sc & -> & _). }
    assert (Hs : hs_secret h1 = hs_secret h /\
      hs_certreq h1 = match m with M_CertificateRequest ctx _ => Some ctx | _ => hs_certreq h end).
    { destruct m; try contradiction.
      - now destruct Hm as [_ ->].
      - now destruct Hm as (_ & v & -> & _).
      - now destruct Hm as [_ ->].
      - now destruct Hm as (_ & v & sc & -> & _).
      - destruct Hm as [_ Hm]. destruct (hs_certreq h) eqn:E; destruct Hm as [_ ->]; now rewrite ?E. }
    destruct Hs as [Hs1 Hs2]. split; [congruence|]. split.
    { rewrite I1, Hs2, requests_cons, rev_app_distr. destruct (rev (requests ms)); [|reflexivity]. now destruct m. }
    destruct I2 as [(J1 & J2 & J3)|(before & bf & v & after & -> & J1 & J2)].
    + destruct m; try contradiction; try (left; split; [|destruct Hf; split; congruence]; intros (x & [<-|Hx] & Hy); [exact Hy|apply J1; eauto]).
      right. exists [], b, verify_data, ms. split; [reflexivity|]. split; [exact J1|].
      unfold raw. cbn [requests map concat app]. destruct Hm as [_ Hm].
      destruct (hs_certreq h); destruct Hm as [-> ->]; cbn [hs_set_traffic hs_traffic] in J3; [exact J2|auto].
    + right. exists ((b, m) :: before), bf, v, after. split; [reflexivity|]. split; [exact J1|].
      rewrite requests_cons. rewrite Hs2 in J2.
      assert (Ha : (tr ++ b) ++ raw before ++ bf = tr ++ raw ((b, m) :: before) ++ bf)
        by (unfold raw; cbn [map concat fst]; now rewrite !app_assoc).
      rewrite <- Ha. destruct m; try exact J2. cbn [app] in *. now destruct (hs_certreq h).
Qed.
(** ** All records up to the last Finished *)

Lemma absorb_stays t tr h ms h' : crypto_ok C -> absorb t tr (St_ServerVerify, h) ms (St_ServerVerify, h') -> no_finished ms.
Proof.
  intros HC H. destruct (absorb_state t tr _ ms _ HC H) as (_ & _ & [(Hn & _)|(before & b & v & after & _ & _ & Hs)]); [exact Hn|].
  cbn [fst snd] in Hs. destruct (match hs_certreq h, requests before with None, [] => true | _, _ => false end); [destruct Hs|]; discriminate.
Qed.

Lemma no_finished_app a b : no_finished a -> no_finished b -> no_finished (a ++ b).
Proof. intros Ha Hb (m & Hm & Hf). apply in_app_or in Hm as [Hm|Hm]; [apply Ha|apply Hb]; eauto. Qed.

Lemma protected_one h f n : (n + match hd_error h with Some b => if Byte.eqb b ty_data then 1 else 0 | None => 0 end =
  n + protected_in [(h, f)])%N.
Proof. unfold protected_in. destruct h as [|b h]; [reflexivity|]. cbn [filter fst hd_error]. now destruct (Byte.eqb b ty_data). Qed.

Lemma protected_in_cons r rs : protected_in (r :: rs) = (protected_in [r] + protected_in rs)%N.
Proof. unfold protected_in. destruct r as [[|b h] f]; cbn [filter fst]; [cbn [length]; lia|]. destruct (Byte.eqb b ty_data); cbn [length]; lia. Qed.

Context (cfg : tls_config).

(** The records up to the one with the first Finished, of which only the last changes the state. *)
Lemma verify_phase L t : crypto_ok C -> forall c h c' h', hrun C p cfg L St_ServerVerify c h c' h' ->
  between (cn_rd c) -> length (k_iv (rkey c)) = iv_len C -> k_traffic (rkey c) = Some t -> (k_counter (rkey c) <= u64_max)%N ->
  exists rs r ms1 ms2 s2 c2 h2, hrun C p cfg L s2 c2 h2 c' h' /\ s2 <> St_ServerVerify /\
    stream (rd_rx (cn_rd c)) = wire_of (rs ++ [r]) ++ stream (rd_rx (cn_rd c2)) /\ between (cn_rd c2) /\
    carried C (k_key (rkey c)) (k_iv (rkey c)) (k_counter (rkey c)) rs (map fst ms1) /\
    carried C (k_key (rkey c)) (k_iv (rkey c)) (k_counter (rkey c) + protected_in rs) [r] (map fst ms2) /\
    no_finished ms1 /\ Forall (fun r => length (snd r) <= length (rd_buf (cn_rd c))) (rs ++ [r]) /\
    (k_counter (rkey c) + protected_in (rs ++ [r]) <= u64_max)%N /\
    absorb t (tr_of c) (St_ServerVerify, h) (ms1 ++ ms2) (s2, h2) /\ tr_of c2 = tr_of c ++ raw (ms1 ++ ms2) /\
    cn_wh c2 = cn_wh c /\ cn_shared c2 = cn_shared c.
Proof.
  intros HC c h c' h' H. remember St_ServerVerify as s0 eqn:Es. revert Es.
  induction H as [c h|s c h s1 c1 h1 c2 h2 Hp Hr IH]; intros Es Hb Hiv Ht Hn; [discriminate|]. subst s.
  inversion Hp as [| |cx hx rec r1 r2 sx hx' Hrd Hd E1 E2 E3 E4 E5 E6| | |]. subst cx hx s1 c1 hx'.
  destruct (verify_record t (cn_rd c) _ rec r1 r2 _ HC Hb Hiv Ht Hrd Hd) as (hd & f & ms & Hstr & Hb2 & _ & Hcar & Hab & Htr & Hk & Hi & Ht2 & Hcnt & Hlf & Hlb & Hmax).
  assert (Hcar1 : carried C (k_key (rkey c)) (k_iv (rkey c)) (k_counter (rkey c)) [(hd, f)] (map fst ms)).
  { rewrite <- (app_nil_r (map fst ms)). apply Hcar. constructor. }
  rewrite (protected_one hd f) in Hcnt.
  specialize (Hmax Hn).
  unfold rkey in *. destruct (match sx with St_ServerVerify => true | _ => false end) eqn:Esx.
  - assert (sx = St_ServerVerify) by (destruct sx; try discriminate; reflexivity). subst sx.
    pose proof (absorb_stays t _ _ _ _ HC Hab) as Hnf.
    destruct (IH eq_refl) as (rs & r & ms1 & ms2 & s3 & c3 & h3 & I1 & I2 & I3 & I4 & I5 & I6 & I7 & I8 & I9 & I10 & I11 & I12 & I13); cbn [cn_rd cn_wh cn_shared] in *.
    + exact Hb2.
    + now rewrite Hi.
    + exact Ht2.
    + exact Hmax.
    + exists ((hd, f) :: rs), r, (ms ++ ms1), ms2, s3, c3, h3. split; [exact I1|]. split; [exact I2|].
      split; [unfold wire_of in *; cbn [app map concat fst snd]; rewrite Hstr, I3, <- !app_assoc; reflexivity|]. split; [exact I4|].
      rewrite Hk, Hi in I5, I6. split; [rewrite map_app; apply Hcar; exact I5|].
      split; [rewrite protected_in_cons, N.add_assoc, <- Hcnt; exact I6|].
      split; [now apply no_finished_app|]. split; [cbn [app]; constructor; [exact Hlf|]; rewrite Hlb in I8; exact I8|].
      split; [cbn [app]; rewrite protected_in_cons, N.add_assoc, <- Hcnt; exact I9|].
      unfold tr_of in *. cbn [cn_rd] in *. rewrite Htr in I10, I11. rewrite <- app_assoc.
      split; [eapply absorb_app; eauto|].
      split; [|auto]. rewrite I11. unfold raw. now rewrite (map_app _ ms), concat_app, app_assoc.
  - exists [], (hd, f), [], ms, sx, (mk_conn r2 (cn_dec c) (cn_wh c) (cn_shared c) (cn_opened c)), h1.
    split; [exact Hr|]. split; [intros ->; discriminate|]. cbn [cn_rd cn_wh cn_shared app].
    split; [unfold wire_of; cbn [map concat fst snd]; rewrite app_nil_r, Hstr, <- app_assoc; reflexivity|]. split; [exact Hb2|].
    split; [constructor|]. change (protected_in []) with 0%N. rewrite N.add_0_r. split; [exact Hcar1|].
    split; [intros (m & [] & _)|]. split; [constructor; [exact Hlf|constructor]|].
    split; [rewrite <- Hcnt; exact Hmax|]. split; [exact Hab|]. split; [exact Htr|auto].
Qed.

(** The same records, taken as one list. *)
Lemma carried_app key iv : forall rs1 n ms1 rs2 ms2, carried C key iv n rs1 ms1 -> carried C key iv (n + protected_in rs1) rs2 ms2 ->
  carried C key iv n (rs1 ++ rs2) (ms1 ++ ms2).
Proof.
  intros rs1 n ms1 rs2 ms2 H. induction H as [n|n h f rs ms Hf Hh H IH|n h m junk rs ms Hf Hh H IH|n h f inner ms1 rs ms Hf Hh Ho Hu H IH]; intros H2; cbn [app].
  - change (protected_in []) with 0%N in H2. now rewrite N.add_0_r in H2.
  - apply ca_ccs; auto. apply IH. rewrite protected_in_cons, N.add_assoc, <- (protected_one h f n), Hh in H2. cbn in H2. now rewrite N.add_0_r in H2.
  - apply ca_clear; auto. apply IH. rewrite protected_in_cons, N.add_assoc, <- (protected_one h (m ++ junk) n), Hh in H2. cbn in H2. now rewrite N.add_0_r in H2.
  - rewrite <- app_assoc. eapply ca_sealed; eauto. apply IH. rewrite protected_in_cons, N.add_assoc, <- (protected_one h f n), Hh in H2. exact H2.
Qed.
End Flight.
