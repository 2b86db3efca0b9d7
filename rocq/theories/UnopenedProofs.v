(** * What [open] leaves in the write buffer when it does not succeed *)
From Coq Require Import String List NArith Arith Bool Lia ZArith.
From Coq.Strings Require Import Byte.
From Coq Require Import ZifyBool ZifyNat ZifyN.
From Verif Require Import Base Buffer Codes Extensions Crypto KeySchedule Config Handshake Record WriteBuffer
  Transport RecordReader ReadBuffer Connection Api
  BaseProofs SpecWire WireProofs BufferProofs SpecKeys KeyProofs WriteProofs SpecRecord RecordProofs
  SpecHello HelloProofs PropHello SpecMessages ExtProofs PropCert SpecSend SendProofs HsWrite HsProofs
  SpecHandshake CompleteProofs SpecAnswer SpaceProofs AnswerProofs ReopenProofs SpecUnopened.
Import ListNotations.
Local Open Scope list_scope.

(** ** Building a record: what can come out of it *)

Lemma no_space_lacks e L m o : lacks_room e -> no_space e L m o -> exists e', o = Err e' /\ lacks_room e'.
Proof. intros He H. destruct H; eexists; (split; [reflexivity|]); try exact He; unfold lacks_room; auto. Qed.

(** *** A message that was begun and did not fit *)

(** The write half holds the header of a record of kind [h] and nothing behind it. *)
Definition stub (L : nat) (h : rec_header) (b : wbuf) : Prop :=
  exists R, b = mk_wbuf (hdr5 h 0 ++ R) 5 (Some h) /\ 5 + length R = L.

Lemma no_room_stub C L r w tr pl buf : encodes (cr_encode_payload C r) pl tt -> 5 <= L -> length buf = L -> L < 5 + length pl ->
  exists e W', wb_write_record C r w tr (mk_wbuf buf 0 None) = (Err e, W') /\ space_error e /\ stub L (cr_header r) W'.
Proof.
  intros Henc H5 Hl Hfit. unfold wb_write_record, bind at 1, get at 1. cbn [wb_hdr]. unfold bind at 1.
  rewrite start_record_ok by lia. unfold bind at 1.
  destruct (Henc (hdr5 (cr_header r) 0) (skipn 5 buf) 5 0) as [_ He]; [now rewrite hdr5_length|].
  destruct He as (e & R' & len' & He & Hs & HR & _); [rewrite skipn_length; lia|].
  erewrite with_buffer_err.
  2:{ unfold bind at 1. rewrite forward_ok. unfold bind at 1. rewrite He. reflexivity. }
  eexists _, _. split; [reflexivity|]. split; [assumption|]. exists R'. split; [reflexivity|]. rewrite HR, skipn_length. lia.
Qed.

Lemma raw_stub C L raw ctx d w tr buf : let r := CR_Handshake (CH_Cert (mk_cert raw ctx [CE_RawPublicKey d])) true in
  5 <= L -> length buf = L -> L < 13 + length ctx ->
  exists e W', wb_write_record C r w tr (mk_wbuf buf 0 None) = (Err e, W') /\ stub L (cr_header r) W'.
Proof.
  intros r H5 Hl Hfit. unfold wb_write_record, bind at 1, get at 1. cbn [wb_hdr]. unfold bind at 1.
  rewrite start_record_ok by lia. unfold bind at 1.
  destruct (raw_gives_up C raw ctx d (hdr5 (cr_header r) 0) (skipn 5 buf) 5 0) as [_ He]; [now rewrite hdr5_length|].
  rewrite !app_length, skipn_length, vec_length in He. cbn [length] in He.
  destruct He as (e & R' & len' & He & HR); [lia|].
  erewrite with_buffer_err.
  2:{ unfold bind at 1. rewrite forward_ok. unfold bind at 1. unfold r at 1, cr_encode_payload. rewrite He. reflexivity. }
  eexists _, _. split; [reflexivity|]. exists R'. split; [reflexivity|]. lia.
Qed.

(** *** A message that fitted while its content type or tag did not *)

Lemma close_err_stuck C k w e w' : wb_close_record C k w = (Err e, w') -> wb_hdr w' = None /\ wb_pos w' = wb_pos w.
Proof.
  unfold wb_close_record. unfold bind at 1, get at 1. unfold bind at 1, lift at 1. destruct (wb_hdr w) as [h|]; cbn [unwrap]; [|discriminate].
  unfold bind at 1, wb_set_hdr, modify. unfold bind at 1.
  set (op := if negb (rh_is_encrypted h) then ret tt else _). unfold with_buffer. destruct w as [b pos hd]. cbn [wb_buf wb_pos wb_hdr].
  destruct (op _) as [[[]|e1|x| |] c1]; try discriminate.
  2:{ intros H. inversion H. subst. auto. }
  unfold bind at 1, get at 1. cbn [wb_buf wb_pos wb_hdr].
  unfold bind at 1, lift at 1. destruct (usize_sub _ _) as [n|e1|x| |] eqn:E1; try discriminate; [|exfalso; exact (sub_no_err _ _ _ E1)].
  unfold bind at 1, lift at 1. destruct (set_index _ 3 _) as [b3|e1|x| |] eqn:E2; try discriminate; [|exfalso; exact (set_index_no_err _ _ _ _ E2)].
  unfold bind at 1, lift at 1. destruct (set_index _ 4 _) as [b4|e1|x| |] eqn:E3; try discriminate; [|exfalso; exact (set_index_no_err _ _ _ _ E3)].
  unfold bind at 1, lift at 1, slice_rng. destruct (_ && _); discriminate.
Qed.

(** The buffer keeps its size. *)
Definition stays {A} (m : W A) : Prop := forall c, length (cb_buf (snd (m c))) = length (cb_buf c).
Lemma stays_bind {A B} (m : W A) (k : A -> W B) : stays m -> (forall a, stays (k a)) -> stays (bind m k).
Proof. intros Hm Hk c. unfold bind. specialize (Hm c). destruct (m c) as [[a|e|x| |] c1]; cbn [snd] in *; try exact Hm. now rewrite Hk. Qed.
Lemma stays_map_err {A} f (m : W A) : stays m -> stays (map_err f m).
Proof. intros Hm c. unfold map_err. specialize (Hm c). destruct (m c). exact Hm. Qed.
Lemma stays_lift {A} (o : outcome tls_error A) : stays (lift o).
Proof. intros c. unfold lift. destruct o; reflexivity. Qed.
Lemma stays_extend b : stays (cb_extend b).
Proof.
  intros c. unfold cb_extend. destruct (cb_space c); try reflexivity. destruct (_ <? _); [reflexivity|]. unfold set_rng.
  destruct (_ <=? _) eqn:E; [|reflexivity]. apply Nat.leb_le in E. cbn [snd cb_buf]. now apply splice_length.
Qed.
Lemma stays_push b : stays (cb_push b).
Proof.
  intros c. unfold cb_push. destruct (cb_space c); try reflexivity. destruct (_ <? _); [|reflexivity]. unfold set_index.
  destruct (_ <? length _) eqn:E; [|reflexivity]. apply Nat.ltb_lt in E. cbn [snd cb_buf]. apply splice_length. cbn [length]. lia.
Qed.
Lemma stays_offset n : stays (cb_offset n).
Proof. intros c. unfold cb_offset. destruct (usize_sub _ _); reflexivity. Qed.
Lemma stays_encrypt C k : stays (encrypt C k).
Proof.
  unfold encrypt. apply stays_bind; [apply stays_lift|intros nonce]. intros c. unfold bind at 1, get at 1. destruct (_ <? _); [reflexivity|].
  unfold bind at 1, lift at 1. destruct (cb_as_slice c); try reflexivity. destruct (c_seal _ _ _ _ _) as [ct tag].
  unfold bind at 1, lift at 1, set_rng. destruct (_ <=? _) eqn:E; [|reflexivity]. apply Nat.leb_le in E.
  unfold bind at 1, put at 1. rewrite (stays_map_err _ _ (stays_extend tag)). cbn [cb_buf]. now apply splice_length.
Qed.

Lemma close_err_len C k w e w' : wb_close_record C k w = (Err e, w') -> length (wb_buf w') = length (wb_buf w).
Proof.
  unfold wb_close_record. unfold bind at 1, get at 1. unfold bind at 1, lift at 1. destruct (wb_hdr w) as [h|]; cbn [unwrap]; [|discriminate].
  unfold bind at 1, wb_set_hdr, modify. unfold bind at 1.
  set (op := if negb (rh_is_encrypted h) then ret tt else _). unfold with_buffer, cb_wrap_with_pos. destruct w as [b pos hd]. cbn [wb_buf wb_pos wb_hdr].
  assert (S : stays op).
  { unfold op. destruct (negb _); [intros c; reflexivity|]. apply stays_bind; [apply stays_map_err, stays_push|intros ?].
    apply stays_bind; [apply stays_offset|intros ?]. apply stays_bind; [apply stays_encrypt|intros ?]. apply stays_offset. }
  specialize (S (mk_cbuf b 0 pos)). destruct (op _) as [[[]|e1|x| |] c1]; try discriminate.
  2:{ intros H. inversion H. subst. exact S. }
  unfold bind at 1, get at 1. cbn [wb_buf wb_pos wb_hdr].
  unfold bind at 1, lift at 1. destruct (usize_sub _ _) as [n|e1|x| |] eqn:E1; try discriminate; [|exfalso; exact (sub_no_err _ _ _ E1)].
  unfold bind at 1, lift at 1. destruct (set_index _ 3 _) as [b3|e1|x| |] eqn:E2; try discriminate; [|exfalso; exact (set_index_no_err _ _ _ _ E2)].
  unfold bind at 1, lift at 1. destruct (set_index _ 4 _) as [b4|e1|x| |] eqn:E3; try discriminate; [|exfalso; exact (set_index_no_err _ _ _ _ E3)].
  unfold bind at 1, lift at 1, slice_rng. destruct (_ && _); discriminate.
Qed.

(** There is a position but no header, and less room behind it than a content type and a tag take. *)
Definition crowded (L : nat) (b : wbuf) : Prop := wb_hdr b = None /\ wb_pos b <> 0 /\ wb_pos b <= L < wb_pos b + 17 /\ length (wb_buf b) = L.

Lemma no_tag_stuck C L m w tr buf : crypto_ok C -> length (k_iv (w_state w)) = iv_len C -> not_hello m -> encodes (enc_client_handshake C m) (msg_wire m) tt ->
  length buf = L -> 5 + length (msg_wire m) <= L < 22 + length (msg_wire m) ->
  exists e W', wb_write_record C (CR_Handshake m true) w tr (mk_wbuf buf 0 None) = (Err e, W') /\ crowded L W'.
Proof.
  intros HC Hiv Hm Henc Hl Hwin. set (r := CR_Handshake m true). set (pl := msg_wire m) in *.
  unfold wb_write_record, bind at 1, get at 1. cbn [wb_hdr].
  unfold bind at 1. rewrite start_record_ok by lia. unfold bind at 1.
  erewrite (payload_stage C r w tr (cr_header r) pl pl (tr ++ pl)); [|exact Henc|unfold r; destruct m; reflexivity || contradiction|reflexivity|rewrite skipn_length; lia].
  unfold bind at 1.
  destruct (close_protected_space C (w_state w) (cr_header r) pl (skipn (length pl) (skipn 5 buf)) HC Hiv eq_refl) as (e & w' & E & _); [rewrite !skipn_length; lia|].
  rewrite E. exists e, w'. split; [reflexivity|]. pose proof (close_err_len _ _ _ _ _ E) as El. apply close_err_stuck in E as [K1 K2].
  cbn [wb_pos wb_buf] in K2, El. rewrite !app_length, hdr5_length, !skipn_length in El. unfold crowded. rewrite K1, K2, El. split; [reflexivity|]. lia.
Qed.


(** The write half of a connection on which [open] ran out of room. *)
Definition half_done (L : nat) (b : wbuf) : Prop :=
  (exists e, stub L (RH_Handshake e) b) \/ crowded L b.

(** The records that [open] builds: the ClientHello, the client's other messages (its Certificate with at most one entry) and alerts. *)
Definition built (r : client_record) : Prop :=
  match r with
  | CR_Handshake (CH_Hello _) e => e = false
  | CR_Handshake (CH_Cert c) e => e = true /\ (ce_entries c = [] \/ exists x, ce_entries c = [x])
  | CR_Handshake (CH_CertVerify _) e => e = true
  | CR_Handshake (CH_Finished f) e => e = true /\ f_hash f = None
  | CR_Alert _ _ _ => True
  end.

Definition fits_or_not (L : nat) (q : outcome tls_error bytes * conn) (c : conn) : Prop :=
  (exists s, fst q = Ok s) \/
  (exists e, fst q = Err e /\ lacks_room e /\ (exists b, half_done L b /\
     snd q = mk_conn (cn_rd c) (cn_dec c) (mk_whalf b (wh_ks (cn_wh c)) (wh_tx (cn_wh c)) (wh_policy (cn_wh c))) (cn_shared c) (cn_opened c))) \/
  (exists x, fst q = Panic x).

Lemma cn_write_wb C r c o b : wb_write_record C r (wh_ks (cn_wh c)) (tr_of c) (wh_wb (cn_wh c)) = (o, b) ->
  fst (cn_write_record C r c) = omap fst o /\
  forall e, o = Err e -> snd (cn_write_record C r c) = mk_conn (cn_rd c) (cn_dec c) (mk_whalf b (wh_ks (cn_wh c)) (wh_tx (cn_wh c)) (wh_policy (cn_wh c))) (cn_shared c) (cn_opened c).
Proof.
  intros H. unfold cn_write_record, bind at 1, get at 1, bind at 1, on_wh at 1, on_wb at 1. fold (tr_of c). rewrite H.
  unfold bind at 2, get at 1, bind at 2, on_wh at 1, on_wb at 1. fold (tr_of c). rewrite H.
  destruct o as [[s tr]|e|x| |]; (split; [reflexivity|]); intros e' E; try discriminate. reflexivity.
Qed.

Lemma hello_image_same C h b b' : length b = length b' -> length (hello_image C h b) = length (hello_image C h b').
Proof.
  intros Hb. unfold hello_image, hello_body. rewrite !app_length, !vec_length, !app_length, !vec_length.
  assert (E : length (concat (map (ext_image b) (ch_extensions C h))) = length (concat (map (ext_image b') (ch_extensions C h)))); [|lia].
  rewrite !concat_length_sum. apply sum_ext. intros e. now apply ext_image_length.
Qed.

Lemma write_cases C L r c : crypto_ok C -> 24 <= L -> idle C L c -> built r -> has_binder r (wh_ks (cn_wh c)) ->
  fits_or_not L (cn_write_record C r c) c.
Proof.
  intros HC HL Hid Hb Hbk. pose proof Hid as [(Hl & Hp & Hh) Hiv].
  assert (Ewb : wh_wb (cn_wh c) = mk_wbuf (wb_buf (wh_wb (cn_wh c))) 0 None) by (rewrite (wbuf_eta (wh_wb (cn_wh c))) at 1; now rewrite Hp, Hh).
  assert (Hok : sendable r -> room_for C L r (wh_ks (cn_wh c)) (tr_of c) -> fits_or_not L (cn_write_record C r c) c).
  { intros Hsd Hr. destruct (wr_rec_fwd C L r (wh_ks (cn_wh c)) (tr_of c) (wh_wb (cn_wh c)) HC Hiv (proj1 Hid) Hsd Hbk Hr) as (s & tr' & b' & Hw).
    destruct (cn_write_wb _ _ _ _ _ Hw) as [E _]. left. exists s. exact E. }
  assert (Hno : forall e b, wb_write_record C r (wh_ks (cn_wh c)) (tr_of c) (wh_wb (cn_wh c)) = (Err e, b) -> lacks_room e -> half_done L b ->
    fits_or_not L (cn_write_record C r c) c).
  { intros e b E He Hd. destruct (cn_write_wb _ _ _ _ _ E) as [E1 E2]. right. left. exists e. split; [exact E1|]. split; [exact He|].
    exists b. split; [exact Hd|]. exact (E2 e eq_refl). }
  assert (Hmsg : forall m, r = CR_Handshake m true -> not_hello m -> encodes (enc_client_handshake C m) (msg_wire m) tt -> fails_as C m ->
    fits_or_not L (cn_write_record C r c) c).
  { intros m -> Hn He Hf. destruct (le_lt_dec (length (msg_wire m) + 22) L) as [Hr|Hr].
    - apply Hok; destruct m; try contradiction; cbn [room_for sendable]; auto.
    - destruct (write_no_space C L m c HC Hid ltac:(lia) Hn He Hf) as (e & c' & E & Hs & _); [unfold has_room; lia|].
      assert (Hre : lacks_room (room_error m)) by (unfold lacks_room; destruct m; cbn; auto).
      destruct (no_space_lacks _ _ _ _ Hre Hs) as (e' & E' & He'). injection E' as <-.
      destruct (wb_write_record C (CR_Handshake m true) (wh_ks (cn_wh c)) (tr_of c) (wh_wb (cn_wh c))) as [o b] eqn:Eb.
      destruct (cn_write_wb _ _ _ _ _ Eb) as [E1 _]. rewrite E in E1. cbn [fst] in E1.
      assert (Ho : o = Err e) by (destruct o as [[]| | | |]; cbn in E1; congruence). subst o.
      apply (Hno e b eq_refl He'). rewrite Ewb in Eb.
      destruct (le_lt_dec (5 + length (msg_wire m)) L) as [H5|H5].
      + right. destruct (no_tag_stuck C L m (wh_ks (cn_wh c)) (tr_of c) (wb_buf (wh_wb (cn_wh c))) HC Hiv Hn He Hl ltac:(lia)) as (e1 & W1 & E3 & K).
        assert (b = W1) by congruence. subst. exact K.
      + left. exists true. destruct (no_room_stub C L (CR_Handshake m true) (wh_ks (cn_wh c)) (tr_of c) (msg_wire m) (wb_buf (wh_wb (cn_wh c))) He ltac:(lia) Hl H5) as (e1 & W1 & E3 & _ & K).
        assert (b = W1) by congruence. subst. exact K. }
  destruct r as [m e|l d e].
  - destruct m as [ce|cv|ch|f]; cbn [built] in Hb.
    + destruct Hb as [-> [E|[x E]]]; destruct ce as [raw ctx es]; cbn [ce_entries] in E; subst es.
      * eapply Hmsg; [reflexivity|exact I|apply (encodes_x509 C raw ctx [])|apply (fails_x509 C raw ctx [])].
      * destruct x as [d|d].
        -- eapply Hmsg; [reflexivity|exact I|apply (encodes_x509 C raw ctx [d])|apply (fails_x509 C raw ctx [d])].
        -- destruct (write_raw C L c raw ctx d Hid ltac:(lia)) as (o & c' & E & _ & [[_ ->]|[Hx ->]]); [rewrite E; right; right; cbn [fst]; eauto|].
           destruct (raw_stub C L raw ctx d (wh_ks (cn_wh c)) (tr_of c) (wb_buf (wh_wb (cn_wh c))) ltac:(lia) Hl Hx) as (e1 & W1 & E3 & K).
           rewrite <- Ewb in E3. destruct (cn_write_wb _ _ _ _ _ E3) as [E1 _]. rewrite E in E1. cbn [fst omap] in E1. injection E1 as <-.
           apply (Hno _ _ E3); [unfold lacks_room; auto|]. left. exists true. exact K.
    + subst e. eapply Hmsg; [reflexivity|exact I|apply encodes_cv|apply fails_cv].
    + subst e. assert (Hbk' : exists bk, cfg_psk (ch_config ch) <> None -> w_binder (wh_ks (cn_wh c)) = Some bk).
      { destruct (cfg_psk (ch_config ch)) eqn:Ep; [|exists []; congruence].
        destruct (Hbk ch false eq_refl) as [bk E]; [congruence|]. exists bk. auto. }
      destruct Hbk' as [bk Hbk'].
      destruct (PropHello.hello_record C ch (wh_ks (cn_wh c)) (tr_of c) bk (wb_buf (wh_wb (cn_wh c))) HC ltac:(destruct (ok_sizes C HC); lia) Hbk')
        as (msg & binders & _ & Hmsg' & Hroom & Hy & Hn).
      rewrite <- Ewb in Hy, Hn.
      destruct (le_lt_dec (5 + length msg) (length (wb_buf (wh_wb (cn_wh c))))) as [H5|H5].
      * destruct (cn_write_wb _ _ _ _ _ (Hy H5)) as [E1 _]. left. eexists. exact E1.
      * destruct (Hn H5) as (e & w' & E & He). apply (Hno e w' E); [unfold lacks_room; destruct He; auto|]. rewrite Ewb in E. left. exists false.
        destruct (no_room_stub C L (CR_Handshake (CH_Hello ch) false) (wh_ks (cn_wh c)) (tr_of c) _ (wb_buf (wh_wb (cn_wh c))) (encodes_hello C ch) ltac:(lia) Hl) as (e1 & W1 & E3 & _ & K).
        { rewrite Hl in H5. replace (length (hello_image C ch (zeros (binders_room C ch)))) with (length msg); [exact H5|].
          rewrite Hmsg'. apply hello_image_same. now rewrite zeros_length. }
        assert (w' = W1) by congruence. subst. exact K.
    + destruct Hb as [-> Hf]. destruct f as [v h]. cbn [f_hash] in Hf. subst h. eapply Hmsg; [reflexivity|exact I|apply encodes_fin|apply fails_fin].
  - apply Hok; [exact I|]. cbn. lia.
Qed.

(** ** What holds of the connection as long as [open] runs *)

Section Clean.
Context {S : Type} (K : N -> S -> Prop) (Q : tls_error -> S -> Prop).
Context (Hmono : forall n n' st, (n <= n')%N -> K n st -> K n' st).

(** From [K n], [m] leads to [K (f a)] if it gives [a]; if it ends otherwise, then in [K 9], or with an error and in [Q] of it. *)
Definition clean {A} (n : N) (f : A -> N) (m : M S tls_error A) : Prop := forall st, K n st ->
  match m st with
  | (Ok a, st') => K (f a) st'
  | (Err e, st') => K 9 st' \/ Q e st'
  | (Cancelled, st') => K 9 st'
  | _ => True
  end.

Lemma cl_bind {A B} n f g (m : M S tls_error A) (k : A -> M S tls_error B) :
  clean n f m -> (forall a, clean (f a) g (k a)) -> clean n g (bind m k).
Proof.
  intros Hm Hk st H. specialize (Hm st H). unfold bind. destruct (m st) as [[a|e|x| |] st']; auto. exact (Hk a st' Hm).
Qed.
Lemma cl_bindq {A B} n f g (m : M S tls_error A) (k : A -> M S tls_error B) :
  clean n f m -> (forall st a st', m st = (Ok a, st') -> clean (f a) g (k a)) -> clean n g (bind m k).
Proof.
  intros Hm Hk st H. specialize (Hm st H). specialize (Hk st). unfold bind. destruct (m st) as [[a|e|x| |] st']; auto. exact (Hk a st' eq_refl st' Hm).
Qed.
Lemma cl_get {B} n g (k : S -> M S tls_error B) : (forall st, K n st -> clean n g (k st)) -> clean n g (bind get k).
Proof. intros H st Hst. exact (H st Hst st Hst). Qed.
Lemma cl_kept {A} n (f : A -> N) (m : M S tls_error A) : (n <= 9)%N -> (forall a, (n <= f a)%N) -> kept (K n) m -> clean n f m.
Proof.
  intros Hn Hf Hm st H. specialize (Hm st H). destruct (m st) as [[a|e|x| |] st']; cbn [snd] in *; auto; try (left; revert Hm; now apply Hmono).
  - revert Hm. now apply Hmono.
  - revert Hm. now apply Hmono.
Qed.
Lemma cl_lift {A B} n (o : outcome tls_error A) g (k : A -> M S tls_error B) : (n <= 9)%N -> (forall a, o = Ok a -> clean n g (k a)) -> clean n g (bind (lift o) k).
Proof.
  intros Hn H st Hst. unfold bind, lift. destruct o as [a|e|x| |]; auto.
  - exact (H a eq_refl st Hst).
  - left. revert Hst. now apply Hmono.
  - revert Hst. now apply Hmono.
Qed.
End Clean.

Section Unopened.
Context (C : crypto) (HC : crypto_ok C) (L : nat) (HL : 24 <= L).

Definition unopened (n : N) (c : conn) : Prop :=
  idle C L c /\ (cn_opened c = false /\ wh_policy (cn_wh c) = Strict) /\ (k_counter (wst (cn_wh c)) <= n)%N.

(** [open] ended with [e] because a message had no room, and left what it had begun in the write buffer. *)
Definition ran_out (e : tls_error) (c : conn) : Prop :=
  lacks_room e /\
    half_done L (wh_wb (cn_wh c)) /\ length (k_iv (wst (cn_wh c))) = iv_len C /\
    (cn_opened c = false /\ wh_policy (cn_wh c) = Strict) /\ (k_counter (wst (cn_wh c)) <= 9)%N.

Lemma un_mono n n' c : (n <= n')%N -> unopened n c -> unopened n' c.
Proof. intros Hn (H1 & H2 & H3). split; [exact H1|]. split; [exact H2|]. lia. Qed.

Lemma un_rd {A} n (m : M rdst tls_error A) : kept (unopened n) (on_rd m).
Proof. intros c H. unfold on_rd. destruct (m (cn_rd c)). exact H. Qed.

Lemma un_ks n f : (forall k k', f k = Ok k' -> (k_counter (w_state (ks_w k')) <= k_counter (w_state (ks_w k)))%N /\
    (length (k_iv (w_state (ks_w k))) = iv_len C -> length (k_iv (w_state (ks_w k'))) = iv_len C)) -> kept (unopened n) (on_ks f).
Proof.
  intros H c ((Hp & Hiv) & Ho & Hn). unfold on_ks. destruct (f (cn_keysched c)) as [k'|e|x| |] eqn:E; try (cbn [snd]; split; [split; assumption|split; assumption]).
  apply H in E as [E1 E2]. cbn [snd]. split; [split; [exact Hp|apply E2; exact Hiv]|split; [exact Ho|]].
  unfold cn_with_keysched, wst in *. cbn [cn_wh wh_with_ks wh_ks cn_keysched ks_w] in *. lia.
Qed.

Lemma un_write n r : (n <= 9)%N -> built r -> (match r with CR_Handshake (CH_Hello _) _ => False | _ => True end) ->
  clean unopened ran_out n (fun _ => n) (cn_write_record C r).
Proof.
  intros Hn Hb Hh c (Hid & Ho & Hc).
  assert (Hbk : has_binder r (wh_ks (cn_wh c))) by (intros h e -> _; contradiction).
  assert (Hsd : sendable r) by (destruct r as [[]|]; try exact I; contradiction).
  pose proof (write_cases C L r c HC HL Hid Hb Hbk) as W. destruct (cn_write_record C r c) as [o c'] eqn:E. unfold fits_or_not in W. cbn [fst snd] in W.
  destruct W as [[s ->]|[(e & -> & He & Hd)|[x ->]]]; auto.
  2:{ right. split; [exact He|]. destruct Hd as (b & Hd & ->). split; [exact Hd|]. split; [exact (proj2 Hid)|]. split; [exact Ho|].
      unfold wst in *. cbn [cn_wh wh_ks]. lia. }
  destruct (cn_write_ok C L r c s c' HC Hid Hsd Hbk E) as (pl & b & _ & _ & Hp & _ & ->).
  split; [split; [exact Hp|exact (proj2 Hid)]|]. split; assumption.
Qed.

Lemma un_respond n s : (n < 9)%N -> clean unopened ran_out n (fun _ => (n + 1)%N) (on_wh (respond s)).
Proof.
  intros Hn c ((Hp & Hiv) & Ho & Hc). unfold on_wh. rewrite respond_send.
  destruct (send_cases s true (cn_wh c)) as (o & w' & E & Hs & Hwb & Hpol & _). rewrite E.
  assert (G : wst w' = wst (cn_wh c) \/ wst w' = bump (wst (cn_wh c))).
  { destruct Hs as [o n' Hio Hn' Hnok Hk Hlog|Hmax Hk Hlog|Hcnt Hk Hlog|o Hcnt Hk Hio Hst Hnok Hlog]; unfold wst; rewrite Hk; auto. }
  assert (G' : unopened (n + 1) (mk_conn (cn_rd c) (cn_dec c) w' (cn_shared c) (cn_opened c))).
  { split; [split; cbn [cn_wh]; [now rewrite Hwb|]|split; [cbn [cn_opened cn_wh]; now rewrite Hpol|cbn [cn_wh]]].
    - destruct G as [-> | ->]; exact Hiv.
    - destruct G as [-> | ->]; [lia|]. unfold bump. cbn [k_counter]. lia. }
  destruct o as [[]|e|x| |]; auto; try (left; revert G'; apply un_mono; lia). revert G'. apply un_mono. lia.
Qed.

Section Opening.
Context {V : Type} (p : provider V) (cfg : tls_config).

Definition unopened_with (n : N) (st : conn * @hs_data V) : Prop := unopened n (fst st).
Definition ran_out_with (e : tls_error) (st : conn * @hs_data V) : Prop := ran_out e (fst st).

Lemma uw_mono n n' st : (n <= n')%N -> unopened_with n st -> unopened_with n' st.
Proof. apply un_mono. Qed.
Lemma uw_conn {A} n f (m : M conn tls_error A) : clean unopened ran_out n f m -> clean unopened_with ran_out_with n f (on_conn m).
Proof. intros H [c h] Hc. specialize (H c Hc). unfold on_conn. cbn [fst snd]. destruct (m c) as [[a|e|x| |] c']; exact H. Qed.
Lemma uw_keep {A} n (m : M conn tls_error A) : kept (unopened n) m -> kept (unopened_with n) (on_conn m).
Proof. intros H [c h] Hc. specialize (H c Hc). unfold on_conn, unopened_with. cbn [fst snd] in *. now destruct (m c). Qed.
Lemma uw_hs n f : kept (unopened_with n) (mod_hs f).
Proof. intros [c h] H. exact H. Qed.

Lemma un_early n psk : kept (unopened n) (on_ks (fun k => initialize_early_secret C k psk)).
Proof. apply un_ks. intros k k' H. apply ie_binder in H as [_ ->]. split; [lia|auto]. Qed.
Lemma un_handshake n dhe : kept (unopened n) (on_ks (fun k => initialize_handshake_secret C k dhe)).
Proof. apply un_ks. intros k k' H. apply (ihs_iv C) in H; [|exact HC]. destruct H as (H1 & H2 & _). rewrite H2. split; [lia|auto]. Qed.
Lemma un_master n : kept (unopened n) (on_ks (initialize_master_secret C)).
Proof. apply un_ks. intros k k' H. apply (ims_iv C) in H; [|exact HC]. destruct H as (H1 & H2 & _). rewrite H2. split; [lia|auto]. Qed.

Lemma uw_write n r : (n <= 9)%N -> built r -> (match r with CR_Handshake (CH_Hello _) _ => False | _ => True end) ->
  clean unopened_with ran_out_with n (fun _ => n) (on_conn (cn_write_record C r)).
Proof. intros. now apply uw_conn, un_write. Qed.
Lemma uw_respond n s : (n < 9)%N -> clean unopened_with ran_out_with n (fun _ => (n + 1)%N) (on_conn (on_wh (respond s))).
Proof. intros. now apply uw_conn, un_respond. Qed.

Lemma uw_ret {A} n f (a : A) : (n <= f a)%N -> clean unopened_with ran_out_with n f (ret a).
Proof. intros H st Hst. cbn. revert Hst. now apply uw_mono. Qed.
Lemma uw_fail {A} n (f : A -> N) e : (n <= 9)%N -> clean unopened_with ran_out_with n f (fail e).
Proof. intros H st Hst. cbn. left. revert Hst. now apply uw_mono. Qed.

(** How many records can have been sent with the present key when a state is reached. *)
Definition sent_by (s : hs_state) : N :=
  match s with
  | St_ClientHello => 0 | St_ServerHello | St_ServerVerify | St_ClientCert => 1 | St_ClientCertVerify => 2
  | St_ClientFinished => 3 | St_ApplicationData => 4
  end.

Lemma uw_client_hello : clean unopened_with ran_out_with 0 (fun _ => 0%N) (do_client_hello C p cfg).
Proof.
  intros [c h] (Hid & Ho & Hc). unfold do_client_hello. unfold bind at 1, on_conn at 1. cbn [fst snd].
  pose proof (un_early 0 (option_map fst (cfg_psk cfg)) c (conj Hid (conj Ho Hc))) as G.
  destruct (on_ks _ c) as [o c1] eqn:E. cbn [snd] in G.
  assert (G9 : unopened 9 c1) by (revert G; apply un_mono; lia).
  destruct o as [[]|e|x| |]; auto. clear G9.
  apply on_ks_ok in E as (k & Ek & ->). apply ie_binder in Ek as [[bk Hbk] _].
  set (r := CR_Handshake (CH_Hello (mk_ch cfg (p_random p) (p_secret p))) false). set (c1 := cn_with_keysched c k) in *.
  assert (Hb : has_binder r (wh_ks (cn_wh c1))) by (intros ? ? _ _; exists bk; exact Hbk).
  destruct G as (Hid1 & Ho1 & Hc1).
  unfold bind at 1, on_conn at 1. cbn [fst snd].
  pose proof (write_cases C L r c1 HC HL Hid1 eq_refl Hb) as W. destruct (cn_write_record C r c1) as [o c'] eqn:E. unfold fits_or_not in W. cbn [fst snd] in W.
  destruct W as [[s ->]|[(e & -> & He & Hd)|[x ->]]]; auto.
  2:{ right. split; [exact He|]. destruct Hd as (b & Hd & ->). split; [exact Hd|]. split; [exact (proj2 Hid1)|]. split; [exact Ho1|].
      unfold wst in *. cbn [fst cn_wh wh_ks]. lia. }
  destruct (cn_write_ok C L r c1 s c' HC Hid1 eq_refl Hb E) as (pl & b & _ & _ & Hp & _ & ->).
  split; [split; [exact Hp|exact (proj2 Hid1)]|]. split; assumption.
Qed.

Lemma uw_server_hello rec : kept (unopened_with 1) (process_server_hello C rec (V:=V)).
Proof.
  unfold process_server_hello. destruct rec as [[e| | |ce|ctx|v|f]| |l d|hd off data]; try apply kp_fail.
  apply kp_get. intros st _. apply kp_bind; [apply uw_hs|intros _]. apply kp_lift. intros s _. apply kp_lift. intros d _.
  apply kp_bind; [apply uw_keep, un_handshake|intros _; apply kp_ret].
Qed.

Lemma uw_server_verify rec : kept (unopened_with 1) (process_server_verify C p rec).
Proof.
  intros [c h] H. unfold process_server_verify. destruct (decrypt_record _ _ _ _) as [o [r [s h']]]. exact H.
Qed.

Lemma uw_hpe m : kept (unopened_with 1) m -> (forall st s st', m st = (Ok s, st') -> (1 <= sent_by s)%N) -> clean unopened_with ran_out_with 1 sent_by (handle_processing_error C m).
Proof.
  intros H Hs st Hst. unfold handle_processing_error.
  specialize (H st Hst). specialize (Hs st). unfold bind at 1, attempt at 1. destruct (m st) as [[s|e|x| |] st']; cbn [snd] in *; auto.
  - cbn. revert H. apply uw_mono. exact (Hs s st' eq_refl).
  - assert (Hf : forall e', clean unopened_with ran_out_with 1 sent_by (fail e')) by (intros e'; apply uw_fail; lia).
    assert (Ha : forall l d, clean unopened_with ran_out_with 1 sent_by (tx <- on_conn (cn_write_record C (CR_Alert l d false)) ;;
      on_conn (on_wh (respond tx)) ;;; fail (AbortHandshake l d))).
    { intros l d. eapply cl_bind; [apply uw_write; [lia|exact I|exact I]|intros tx; cbn beta].
      eapply cl_bind; [apply uw_respond; lia|intros ?; cbn beta]. apply uw_fail. lia. }
    destruct e; try exact (Hf _ st' H). exact (Ha _ _ st' H).
  - revert H. apply uw_mono. lia.
Qed.

Lemma server_hello_next rec st s st' : process_server_hello C rec (V:=V) st = (Ok s, st') -> (1 <= sent_by s)%N.
Proof.
  intros H. unfold process_server_hello in H. destruct rec as [[e| | |ce|ctx|v|f]| |l d|hd off data]; try discriminate H.
  apply bind_ok in H as (? & ? & _ & H). apply bind_ok in H as (? & ? & _ & H). apply bind_ok in H as (? & ? & _ & H). apply bind_ok in H as (? & ? & _ & H).
  apply bind_ok in H as (? & ? & _ & H). inversion H. cbn. lia.
Qed.

Definition next_of (st : hs_state * @hs_data V) : Prop := (1 <= sent_by (fst st))%N.
Lemma verify_cb_next k rec st : next_of st -> next_of (snd (server_verify_cb C p k rec st)).
Proof.
  revert st. change (kept next_of (server_verify_cb C p k rec)).
  assert (Hv : forall m : M V tls_error unit, kept next_of (on_v m)).
  { intros m [s h] H. unfold on_v. cbn [fst snd] in *. now destruct (m (hs_v h)). }
  assert (Hm : forall f, kept next_of (mod_sv (V:=V) f)) by (intros f [s h] H; exact H).
  assert (Hset : forall s, (1 <= sent_by s)%N -> kept next_of (set_sv (V:=V) s)) by (intros s Hs st _; exact Hs).
  destruct rec as [[e| | |ce|ctx|v|f]| |l d|hd off data]; cbn [server_verify_cb]; try apply kp_ret; try apply kp_fail.
  - destruct (p_has_verifier p); [apply Hv|apply kp_ret].
  - apply kp_lift. intros r _. apply Hm.
  - destruct (p_has_verifier p); [apply Hv|apply kp_ret].
  - apply kp_lift. intros ok _. destruct (negb ok); [apply kp_fail|]. apply kp_get. intros st _.
    destruct (hs_certreq (snd st)); [apply Hset; cbn; lia|]. apply kp_bind; [apply Hm|intros _; apply Hset; cbn; lia].
Qed.

Lemma server_verify_next rec st s st' : process_server_verify C p rec st = (Ok s, st') -> (1 <= sent_by s)%N.
Proof.
  destruct st as [c h]. unfold process_server_verify. intros H.
  pose proof (holds_decrypt C (server_verify_cb C p) next_of verify_cb_next rec (cn_rd c, (St_ServerVerify, h))) as G.
  destruct (decrypt_record _ _ _ _) as [o [r [s1 h']]]. cbn [snd] in G. destruct o as [[]|e|x| |]; cbn in H; try discriminate.
  inversion H. subst. apply G. unfold next_of. cbn. lia.
Qed.

Lemma uw_process s : clean unopened_with ran_out_with (sent_by s) sent_by (process C p cfg s).
Proof.
  destruct s; cbn [process sent_by].
  - eapply cl_bind; [apply uw_client_hello|intros tx; cbn beta]. eapply cl_bind; [apply uw_respond; lia|intros ?; cbn beta]. apply uw_ret. cbn. lia.
  - eapply cl_bind; [apply (cl_kept _ _ uw_mono 1 (fun _ => 1%N)); [lia|lia|apply uw_keep, un_rd]|intros rec; cbn beta].
    apply uw_hpe; [apply uw_server_hello|]. intros st s st'. apply server_hello_next.
  - eapply cl_bind; [apply (cl_kept _ _ uw_mono 1 (fun _ => 1%N)); [lia|lia|apply uw_keep, un_rd]|intros rec; cbn beta].
    apply uw_hpe; [apply uw_server_verify|]. intros st s st'. apply server_verify_next.
  - eapply (cl_bindq _ _ 1 (fun _ => 1%N)).
    + unfold do_client_cert. apply cl_get. intros st _. eapply cl_bind; [apply (cl_kept _ _ uw_mono 1 (fun _ => 1%N)); [lia|lia|apply uw_hs]|intros ?; cbn beta].
      apply (cl_lift _ _ uw_mono); [lia|]. intros ctx _. destruct (p_client_cert p) eqn:Ecc; (eapply cl_bind; [apply uw_write; [lia| |exact I]|intros ?; cbn beta; apply uw_ret; lia]);
        cbn.
      * split; [reflexivity|]. right; eauto.
      * split; [reflexivity|]. left; reflexivity.
    + intros st nt st' E. eapply cl_bind; [apply uw_respond; lia|intros ?; cbn beta]. apply uw_ret. cbn beta.
      unfold do_client_cert in E. apply bind_ok in E as (? & ? & _ & E). apply bind_ok in E as (? & ? & _ & E). apply bind_ok in E as (ctx & ? & _ & E).
      destruct (p_client_cert p); apply bind_ok in E as (? & ? & _ & E); inversion E; subst nt; cbn; lia.
  - eapply (cl_bindq _ _ 2 (fun _ => 2%N)).
    + unfold do_client_cert_verify. apply cl_get. intros st _.
      destruct (p_signer p) as [[sign scheme]|e|x| |].
      * apply (cl_lift _ _ uw_mono); [lia|]. intros msg _. destruct (sign msg); [|intros st1 _; exact I]. destruct (_ <? _); [intros st1 _; exact I|].
        eapply cl_bind; [apply uw_write; [lia|reflexivity|exact I]|intros ?; cbn beta; apply uw_ret; lia].
      * eapply cl_bind; [apply uw_write; [lia|exact I|exact I]|intros ?; cbn beta; apply uw_ret; lia].
      * intros st1 _. exact I.
      * intros st1 _. exact I.
      * intros st1 H. cbn. revert H. apply uw_mono. lia.
    + intros st rt st' E. eapply cl_bind; [apply uw_respond; lia|intros ?; cbn beta]. cbn beta.
      destruct (fst rt) as [s'|e] eqn:Er; [|apply uw_fail; lia]. apply uw_ret.
      unfold do_client_cert_verify in E. apply bind_ok in E as (? & ? & _ & E).
      destruct (p_signer p) as [[sign scheme]|e|y| |]; try discriminate E.
      * apply bind_ok in E as (msg & ? & _ & E). destruct (sign msg); [|discriminate E]. destruct (_ <? _); [discriminate E|].
        apply bind_ok in E as (? & ? & _ & E). inversion E. subst rt. cbn in Er. injection Er as <-. cbn. lia.
      * apply bind_ok in E as (? & ? & _ & E). inversion E. subst rt. discriminate Er.
  - eapply (cl_bind _ _ 3 (fun _ => 3%N)).
    + unfold do_client_finished. apply cl_get. intros st _. apply (cl_lift _ _ uw_mono); [lia|]. intros v _. apply uw_write; [lia|cbn; auto|exact I].
    + intros tx. eapply cl_bind; [apply uw_respond; lia|intros ?; cbn beta]. change (3 + 1)%N with 4%N.
      unfold client_finished_finalize. apply cl_get. intros st _.
      eapply (cl_bind _ _ 4 (fun _ => 4%N)); [apply (cl_kept _ _ uw_mono); [lia|lia|apply uw_hs]|intros ?; cbn beta]. apply (cl_lift _ _ uw_mono); [lia|]. intros tr _.
      eapply (cl_bind _ _ 4 (fun _ => 4%N)); [apply (cl_kept _ _ uw_mono); [lia|lia|apply uw_keep, un_rd]|intros ?; cbn beta].
      eapply (cl_bind _ _ 4 (fun _ => 4%N)); [apply (cl_kept _ _ uw_mono); [lia|lia|apply uw_keep, un_master]|intros ?; cbn beta]. apply uw_ret. cbn. lia.
  - apply uw_ret. cbn. lia.
Qed.

Lemma uw_loop : forall fuel s, clean unopened_with ran_out_with (sent_by s) (fun _ => 9%N) (open_loop C p cfg fuel s).
Proof.
  induction fuel as [|fuel IH]; intros s; destruct s; cbn [open_loop]; try (apply uw_ret; cbn; lia); try (intros st _; exact I);
    (eapply cl_bind; [apply uw_process|intros ?; cbn beta; apply IH]).
Qed.

Lemma goes_unopened s c h s' c' h' : goes C p cfg s c h s' c' h' -> unopened (sent_by s) c -> unopened (sent_by s') c'.
Proof.
  intros H. induction H as [s c h|s c h s1 c1 h1 s3 c3 h3 Hs Hp Hr IH]; intros Hu; [exact Hu|].
  apply IH. pose proof (uw_process s (c, h) Hu) as G. rewrite Hp in G. exact G.
Qed.

(** What [open] leaves behind, other than by success, by a panic or for want of fuel. *)
Lemma open_leaves v c o c' : unopened 0 c -> cn_open C p cfg v c = (o, c') -> (o = Cancelled \/ exists e, o = Err e) ->
  unopened 9 c' \/ exists e, o = Err e /\ ran_out e c'.
Proof.
  intros Hu H Ho. unfold cn_open in H.
  destruct (match p_has_verifier p, cfg_server_name cfg with true, Some n => p_set_hostname p n v | _, _ => (Ok tt, v) end) as [o0 v'].
  assert (G : clean unopened_with ran_out_with 0 (fun _ => 9%N) (lift o0 ;;; open_loop C p cfg (8 + rx_size (rd_rx (cn_rd c))) St_ClientHello)).
  { apply (cl_lift _ _ uw_mono); [lia|]. intros [] _. apply (uw_loop _ St_ClientHello). }
  specialize (G (c, hs_new v') Hu). destruct ((lift o0 ;;; _) _) as [o1 [c1 h1]].
  destruct o1 as [[]|e|x| |]; inversion H; subst; destruct Ho as [Ho|(e' & Ho)]; try discriminate; auto.
  destruct G as [G|G]; [left; exact G|]. right. exists e. auto.
Qed.
End Opening.

(** ** Closing then *)

Lemma on_wh_bind {A B} (m : M whalf tls_error A) (k : A -> M whalf tls_error B) c : on_wh (bind m k) c = bind (on_wh m) (fun a => on_wh (k a)) c.
Proof. unfold on_wh, bind. destruct (m (cn_wh c)) as [[a|e|x| |] w]; reflexivity. Qed.

Lemma close_unopened n c : unopened n c -> (n < u64_max)%N -> tx_ok (wh_tx (cn_wh c)) ->
  exists c', step C OpClose c = (Ok VUnit, c') /\ log_of (cn_wh c') = log_of (cn_wh c) ++ goes_out clear_goodbye.
Proof.
  intros (Hid & [Ho _] & Hc) Hn Htx.
  destruct (sends_fwd (V:=unit) C L (cr_close_notify false) c (hs_new tt) HC Hid) as (s & c1 & msg & c' & Hw & Hr & Hs & _); auto.
  { exact I. } { intros h e E. discriminate E. } { lia. }
  destruct Hs as (Hpl & Hlog & _).
  exists c'. split.
  - cbn [step]. unfold bind at 1, cn_close. unfold bind at 1.
    assert (Hf : cn_flush C c = (Ok tt, c)).
    { destruct Hid as [(_ & Hp & _) _]. unfold cn_flush, wh_flush, on_wh, bind at 1, get at 1. unfold wb_is_empty. rewrite Hp. cbn. now destruct c. }
    rewrite Hf. unfold bind at 1, get at 1. rewrite Ho. unfold bind at 1. rewrite Hw.
    specialize (Hr (hs_new tt)). unfold on_conn in Hr. cbn [fst snd] in Hr.
    destruct (on_wh (respond s) c1) as [o c2] eqn:E. injection Hr as -> ->.
    unfold respond in E. rewrite on_wh_bind in E. unfold bind at 1 in E. unfold bind at 1.
    destruct (on_wh (on_tx (tx_write_all s)) c1) as [[[]|e|x| |] c3]; try discriminate E.
    rewrite on_wh_bind in E. rewrite E. reflexivity.
  - rewrite Hlog. cbn [payload_of cr_close_notify] in Hpl. subst msg. reflexivity.
Qed.

Definition stub_record (h : rec_header) (k : kstate) : bytes :=
  if rh_is_encrypted h then rfc_record C (k_key k) (k_iv k) (k_counter k) (byte_of (content_type_code (rh_trailer_content_type h))) [] 0 else hdr5 h 0.

Lemma close_stub h n c : stub L h (wh_wb (cn_wh c)) -> length (k_iv (wst (cn_wh c))) = iv_len C ->
  cn_opened c = false -> wh_policy (cn_wh c) = Strict -> (k_counter (wst (cn_wh c)) <= n)%N -> (n + 1 < u64_max)%N -> tx_ok (wh_tx (cn_wh c)) ->
  exists c', step C OpClose c = (Ok VUnit, c') /\
    log_of (cn_wh c') = log_of (cn_wh c) ++ goes_out (stub_record h (wst (cn_wh c))) ++ goes_out clear_goodbye.
Proof.
  intros (R & Hb & HR) Hiv Ho Hpol Hc Hn Htx.
  assert (Hcl : exists b', wb_close_record C (wst (cn_wh c)) (wh_wb (cn_wh c)) = (Ok (stub_record h (wst (cn_wh c))), b') /\ pending L b' None).
  { rewrite Hb. unfold stub_record. destruct (rh_is_encrypted h) eqn:Eh.
    - eexists. split; [pose proof (close_protected C (wst (cn_wh c)) h [] R HC Hiv Eh ltac:(lia)) as G; cbn [app length Nat.add] in G; rewrite G|].
      + now rewrite protected_record_rfc by assumption.
      + repeat split. cbn [wb_buf]. rewrite app_length, ?protected_record_length, ?rfc_record_length, skipn_length by assumption. cbn [length]. lia.
    - eexists. split; [pose proof (close_plain C (wst (cn_wh c)) h [] R Eh) as G; cbn [app length Nat.add] in G; rewrite G; now rewrite app_nil_r|].
      repeat split. cbn [wb_buf]. rewrite app_length, hdr5_length. exact HR. }
  destruct Hcl as (b' & Hcl & Hp').
  set (s := stub_record h (wst (cn_wh c))) in *.
  set (w1 := mk_whalf b' (wh_ks (cn_wh c)) (wh_tx (cn_wh c)) (wh_policy (cn_wh c))).
  destruct (respond_fwd s w1 Htx ltac:(cbn; unfold wst in *; cbn; lia)) as (w2 & Hr & Htx2).
  destruct (respond_ok s w1 w2 Hr) as (Hwb2 & Hpol2 & Hks2 & Hlog2 & _).
  set (c2 := mk_conn (cn_rd c) (cn_dec c) w2 (cn_shared c) (cn_opened c)).
  assert (Hfl : cn_flush C c = (Ok tt, c2)).
  { unfold cn_flush, on_wh. unfold wh_flush, bind at 1, get at 1.
    assert (He : wb_is_empty (wh_wb (cn_wh c)) = false) by (rewrite Hb; reflexivity). rewrite He.
    unfold bind at 1, on_wb at 1. unfold wst in Hcl. rewrite Hcl. fold w1. rewrite Hpol. cbn [policy_flush_transport].
    unfold respond in Hr. rewrite Hr. reflexivity. }
  assert (Hu : unopened (n + 1) c2).
  { split; [split; cbn [cn_wh c2]; [now rewrite Hwb2|unfold wst; rewrite Hks2; exact Hiv]|].
    split; [cbn; split; [exact Ho|rewrite Hpol2; exact Hpol]|]. unfold wst in *. cbn [cn_wh c2]. rewrite Hks2. cbn. lia. }
  destruct (close_unopened (n + 1) c2 Hu Hn Htx2) as (c' & Hs & Hlog).
  exists c'. split.
  - assert (Hf2 : cn_flush C c2 = (Ok tt, c2)).
    { destruct Hu as [[(_ & Hp & _) _] _]. unfold cn_flush, wh_flush, on_wh, bind at 1, get at 1. unfold wb_is_empty. rewrite Hp. reflexivity. }
    assert (Ecl : cn_close C c = cn_close C c2).
    { unfold cn_close. unfold bind at 1. rewrite Hfl. symmetry. unfold bind at 1. now rewrite Hf2. }
    rewrite <- Hs. cbn [step]. unfold bind. now rewrite Ecl.
  - rewrite Hlog. cbn [cn_wh c2]. rewrite Hlog2. unfold goes_out. now rewrite <- app_assoc.
Qed.

Lemma close_stuck c : wb_hdr (wh_wb (cn_wh c)) = None -> wb_pos (wh_wb (cn_wh c)) <> 0 ->
  exists c', step C OpClose c = (Panic PUnwrap, c') /\ wh_tx (cn_wh c') = wh_tx (cn_wh c).
Proof.
  intros Hh Hp. eexists. cbn [step]. unfold bind at 1, cn_close, bind at 1, cn_flush, on_wh, wh_flush, bind at 1, get at 1.
  unfold wb_is_empty. destruct (Nat.eqb_spec (wb_pos (wh_wb (cn_wh c))) 0) as [E|_]; [contradiction|].
  unfold bind at 1, on_wb at 1, wb_close_record, bind at 1, get at 1. unfold bind at 1, lift at 1. rewrite Hh. cbn [unwrap].
  split; reflexivity.
Qed.
End Unopened.
