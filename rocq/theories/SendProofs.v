(** * The sending side of an established connection *)
From Coq Require Import List NArith Arith Bool Lia ZArith.
From Coq.Strings Require Import Byte.
From Coq Require Import ZifyBool ZifyNat ZifyN.
From Verif Require Import Base Buffer Codes Extensions Crypto KeySchedule Config Handshake Record WriteBuffer
  Transport RecordReader ReadBuffer Connection Api
  BaseProofs SpecWire WireProofs BufferProofs SpecKeys KeyProofs WriteProofs SpecRecord RecordProofs SpecSend.
Import ListNotations.

Ltac Zify.zify_post_hook ::= Z.div_mod_to_equations.

(** ** Handing one record to the transport *)

Definition log_of (w : whalf) : list tx_event := tx_log (wh_tx w).
Definition wst (w : whalf) : kstate := w_state (wh_ks w).

(** The transport's remaining answers are all "ok". *)
Definition tx_ok (t : txst) : Prop := Forall (eq WrOk) (tx_wr t) /\ Forall (eq FlOk) (tx_fl t).
Definition wr_ok (t : txst) : Prop := Forall (eq WrOk) (tx_wr t).

Definition bump (k : kstate) : kstate := mk_kstate (k_traffic k) (k_counter k + 1) (k_key k) (k_iv k).

Definition send (s : bytes) (strict : bool) : M whalf tls_error unit :=
  on_tx (tx_write_all s) ;;; wh_increment ;;; if strict then on_tx tx_flush else ret tt.

Inductive sent (s : bytes) (strict : bool) (w w' : whalf) : outcome tls_error unit -> Prop :=
| sent_wfail o n : io_fault o -> n <= length s -> ~ wr_ok (wh_tx w) -> wh_ks w' = wh_ks w ->
    log_of w' = log_of w ++ [TxWrite s n] -> sent s strict w w' o
| sent_panic : (u64_max <= k_counter (wst w))%N -> wh_ks w' = wh_ks w ->
    log_of w' = log_of w ++ [TxWrite s (length s)] -> sent s strict w w' (Panic PUnwrap)
| sent_done : (k_counter (wst w) < u64_max)%N -> wh_ks w' = w_with_state (wh_ks w) (bump (wst w)) ->
    log_of w' = log_of w ++ TxWrite s (length s) :: (if strict then [TxFlush] else []) ->
    sent s strict w w' (Ok tt)
| sent_ffail o : (k_counter (wst w) < u64_max)%N -> wh_ks w' = w_with_state (wh_ks w) (bump (wst w)) ->
    io_fault o -> strict = true -> ~ tx_ok (wh_tx w) ->
    log_of w' = log_of w ++ [TxWrite s (length s)] -> sent s strict w w' o.

Ltac txs :=
  cbn; unfold tx_ok, wr_ok, not in *; cbn in *;
  repeat match goal with |- _ /\ _ => split end; intros;
  repeat match goal with H : _ /\ _ |- _ => destruct H end;
  repeat match goal with H : Forall _ (_ :: _) |- _ => inversion H; clear H; subst end;
  try discriminate; auto.

Lemma send_cases s strict w : exists o w', send s strict w = (o, w') /\ sent s strict w w' o /\
  wh_wb w' = wh_wb w /\ wh_policy w' = wh_policy w /\
  (tx_ok (wh_tx w) -> tx_ok (wh_tx w')) /\ (wr_ok (wh_tx w) -> wr_ok (wh_tx w')).
Proof.
  destruct w as [b ks [wr fl log] pol]. unfold send.
  assert (Hinc : forall (w0 : whalf), wh_ks w0 = ks ->
    ((k_counter (w_state ks) < u64_max)%N /\
      wh_increment w0 = (Ok tt, mk_whalf (wh_wb w0) (w_with_state ks (bump (w_state ks))) (wh_tx w0) (wh_policy w0)))
    \/ ((u64_max <= k_counter (w_state ks))%N /\ wh_increment w0 = (Panic PUnwrap, w0))).
  { intros w0 H. unfold wh_increment, bind, get, lift, increment_counter, put. rewrite H.
    destruct (k_counter (w_state ks) <? u64_max)%N eqn:E.
    - left. apply N.ltb_lt in E. auto.
    - right. apply N.ltb_ge in E. auto. }
  assert (Hok : forall wr', (wr = [] /\ wr' = [] \/ wr = WrOk :: wr') ->
    on_tx (tx_write_all s) (mk_whalf b ks (mk_txst wr fl log) pol)
    = (Ok tt, mk_whalf b ks (mk_txst wr' fl (log ++ [TxWrite s (length s)])) pol) ->
    exists o w', (on_tx (tx_write_all s) ;;; wh_increment ;;; if strict then on_tx tx_flush else ret tt)
       (mk_whalf b ks (mk_txst wr fl log) pol) = (o, w') /\
     sent s strict (mk_whalf b ks (mk_txst wr fl log) pol) w' o /\ wh_wb w' = b /\ wh_policy w' = pol /\
     (tx_ok (mk_txst wr fl log) -> tx_ok (wh_tx w')) /\ (wr_ok (mk_txst wr fl log) -> wr_ok (wh_tx w'))).
  { intros wr' Hwr Hev. unfold bind at 1. rewrite Hev. unfold bind at 1.
    assert (Hwr2 : Forall (eq WrOk) wr -> Forall (eq WrOk) wr').
    { destruct Hwr as [[-> ->]| ->]; [auto|]. now inversion 1. }
    destruct (Hinc (mk_whalf b ks (mk_txst wr' fl (log ++ [TxWrite s (length s)])) pol) eq_refl)
      as [[Hc ->]|[Hc ->]].
    2:{ do 2 eexists. split; [reflexivity|]. split; [now apply sent_panic|]. txs. }
    cbn [wh_wb wh_tx wh_policy].
    destruct strict.
    2:{ do 2 eexists. split; [reflexivity|]. split; [now apply sent_done|]. txs. }
    unfold on_tx, tx_flush. cbn [wh_tx tx_fl tx_wr tx_log wh_wb wh_ks wh_policy].
    destruct fl as [|[|k|] fl].
    - do 2 eexists. split; [reflexivity|]. split; [apply sent_done; auto; cbn; now rewrite <- app_assoc|]. txs.
    - do 2 eexists. split; [reflexivity|]. split; [apply sent_done; auto; cbn; now rewrite <- app_assoc|]. txs.
    - do 2 eexists. split; [reflexivity|]. split.
      + apply sent_ffail; auto; [left; cbn; eauto|]. txs.
      + txs.
    - do 2 eexists. split; [reflexivity|]. split.
      + apply sent_ffail; auto; [right; reflexivity|]. txs.
      + txs. }
  destruct wr as [|[|n k|n] wr].
  - apply (Hok []); [auto|reflexivity].
  - apply (Hok wr); [auto|reflexivity].
  - clear Hok. do 2 eexists. split; [reflexivity|]. split.
    + eapply sent_wfail with (n := Nat.min n (length s)); auto; [left; cbn; eauto|lia|]. txs.
    + txs.
  - clear Hok. do 2 eexists. split; [reflexivity|]. split.
    + eapply sent_wfail with (n := Nat.min n (length s)); auto; [right; reflexivity|lia|]. txs.
    + txs.
Qed.

(** ** The write buffer *)

(** [pend] is what the application wrote and has not been handed to the transport:
    [None] = no record started. *)
Definition pending (L : nat) (w : wbuf) (pend : option bytes) : Prop :=
  length (wb_buf w) = L /\
  match pend with
  | None => wb_pos w = 0 /\ wb_hdr w = None
  | Some pl =>
      wb_pos w = 5 + length pl /\ wb_hdr w = Some RH_AppData /\ 133 + length pl < L /\
      exists R, wb_buf w = hdr5 RH_AppData 0 ++ pl ++ R
  end.

(** The write half of an established connection. *)
Definition sending (C : crypto) (L : nat) (w : whalf) (pend : option bytes) : Prop :=
  133 <= L /\ length (k_iv (wst w)) = iv_len C /\ pending L (wh_wb w) pend.

(** The record that carries [pl] as application data. *)
Definition data_record (C : crypto) (w : whalf) (pl : bytes) : bytes :=
  rfc_record C (k_key (wst w)) (k_iv (wst w)) (k_counter (wst w)) ty_data pl 0.

(** [close_record] of a record of [pl]; it may fill the block completely. *)
Lemma close_data C L w pl R : crypto_ok C -> 133 <= L -> length (k_iv (wst w)) = iv_len C ->
  wb_buf (wh_wb w) = hdr5 RH_AppData 0 ++ pl ++ R -> wb_pos (wh_wb w) = 5 + length pl ->
  wb_hdr (wh_wb w) = Some RH_AppData -> 133 + length pl <= L -> length (wb_buf (wh_wb w)) = L ->
  exists b, wh_flush C w = send (data_record C w pl) (policy_flush_transport (wh_policy w))
      (mk_whalf b (wh_ks w) (wh_tx w) (wh_policy w)) /\ pending L b None.
Proof.
  intros HC HL Hiv Hb Hp Hh Hfit Hlen.
  destruct w as [[buf pos hdr] ks tx pol]. cbn [wh_wb wb_buf wb_pos wb_hdr wh_ks wh_policy wh_tx] in *. subst.
  assert (HR : 17 <= length R) by (rewrite !app_length, hdr5_length in *; lia).
  pose proof (close_protected C (w_state ks) RH_AppData pl R HC Hiv eq_refl HR) as Hc.
  eexists. split.
  - unfold wh_flush, bind at 1, get at 1. unfold wb_is_empty. cbn [wh_wb wb_pos]. cbn [Nat.eqb Nat.add].
    unfold bind at 1. unfold on_wb at 1. cbn [wh_wb wh_ks]. change (S (S (S (S (S (length pl)))))) with (5 + length pl).
    rewrite Hc. cbn [rh_trailer_content_type]. rewrite protected_record_rfc by assumption.
    cbn [wh_tx wh_policy]. unfold data_record, wst. cbn [wh_ks]. change (byte_of (content_type_code CT_ApplicationData)) with ty_data.
    reflexivity.
  - cbn [rh_trailer_content_type]. split; [|split; reflexivity]. cbn [wb_buf].
    rewrite app_length, rfc_record_length, skipn_length by assumption.
    rewrite !app_length, hdr5_length in *. lia.
Qed.

Lemma flush_idle C L w : sending C L w None -> wh_flush C w = (Ok tt, w).
Proof.
  intros (_ & _ & _ & Hp & _). unfold wh_flush, bind, get, wb_is_empty. now rewrite Hp.
Qed.

Lemma flush_pending C L w pl : crypto_ok C -> sending C L w (Some pl) ->
  exists b, wh_flush C w = send (data_record C w pl) (policy_flush_transport (wh_policy w))
      (mk_whalf b (wh_ks w) (wh_tx w) (wh_policy w)) /\ pending L b None.
Proof.
  intros HC (HL & Hiv & Hlen & Hp & Hh & Hfit & R & Hb). eapply close_data; eauto. lia.
Qed.

(** What [write] puts in the buffer. *)
Definition content (pend : option bytes) : bytes := match pend with Some pl => pl | None => [] end.
Definition accepts_n (L : nat) (pend : option bytes) (buf : bytes) : nat :=
  Nat.min (length buf) (L - 133 - length (content pend)).

Lemma append_eval L b pl R buf : wb_buf b = hdr5 RH_AppData 0 ++ pl ++ R -> wb_pos b = 5 + length pl ->
  wb_hdr b = Some RH_AppData -> 133 + length pl <= L -> length (wb_buf b) = L ->
  let n := Nat.min (length buf) (L - 133 - length pl) in
  exists b', wb_append b buf = Ok (n, b') /\ wb_buf b' = hdr5 RH_AppData 0 ++ (pl ++ firstn n buf) ++ skipn n R /\
    wb_pos b' = 5 + (length pl + n) /\ wb_hdr b' = Some RH_AppData /\ length (wb_buf b') = L.
Proof.
  intros Hb Hp Hh Hfit Hlen n. destruct b as [bb pos hdr]. cbn [wb_buf wb_pos wb_hdr] in *. subst hdr pos.
  unfold wb_append, wb_space, wb_max_block. cbn [wb_buf wb_pos wb_hdr]. rewrite Hlen. unfold TLS_RECORD_OVERHEAD.
  rewrite usize_sub_ok by lia. cbn [obind]. rewrite usize_sub_ok by lia. cbn [obind].
  replace (L - 128 - (5 + length pl)) with (L - 133 - length pl) by lia. fold n.
  assert (HR : n <= length R) by (rewrite Hb, !app_length, hdr5_length in Hlen; unfold n; lia).
  destruct (0 <? n) eqn:E.
  - rewrite set_rng_ok by (rewrite Hlen, firstn_length; unfold n in *; lia).
    eexists. split; [reflexivity|]. cbn [wb_buf wb_pos wb_hdr]. rewrite Hb.
    rewrite app_assoc. replace (5 + length pl) with (length (hdr5 RH_AppData 0 ++ pl)) by (rewrite app_length, hdr5_length; lia).
    rewrite splice_at by (rewrite firstn_length; lia).
    rewrite firstn_length, Nat.min_l by (unfold n; lia). rewrite <- !app_assoc.
    repeat split; try (rewrite app_length, hdr5_length; lia); try lia.
    rewrite !app_length, firstn_length, skipn_length. rewrite Hb, !app_length in Hlen. unfold n in *. lia.
  - apply Nat.ltb_ge in E. assert (H0 : n = 0) by lia. clearbody n. subst n.
    eexists. split; [reflexivity|]. cbn [wb_buf wb_pos wb_hdr firstn skipn]. rewrite app_nil_r.
    repeat split; auto.
Qed.

(** [write] on an established connection: [n] bytes go to the buffer; when that fills the
    block, the record is handed to the transport. *)
Lemma write_eval C L w pend buf : crypto_ok C -> sending C L w pend ->
  let n := accepts_n L pend buf in
  let pl := content pend ++ firstn n buf in
  (133 + length pl < L /\
   exists b, wh_write C true buf w = (Ok n, mk_whalf b (wh_ks w) (wh_tx w) (wh_policy w)) /\
     pending L b (Some pl))
  \/ (133 + length pl = L /\
   exists b, wh_write C true buf w
     = (send (data_record C w pl) (policy_flush_transport (wh_policy w)) ;;; ret n)
         (mk_whalf b (wh_ks w) (wh_tx w) (wh_policy w)) /\ pending L b None).
Proof.
  intros HC (HL & Hiv & Hlen & Hpend) n pl.
  assert (Hpre : exists b0 R,
    (if wb_contains (wh_wb w) RH_AppData then ret tt
     else wh_flush C ;;; on_wb (wb_start_record RH_AppData)) w
    = (Ok tt, mk_whalf b0 (wh_ks w) (wh_tx w) (wh_policy w)) /\
    wb_buf b0 = hdr5 RH_AppData 0 ++ content pend ++ R /\ wb_pos b0 = 5 + length (content pend) /\
    wb_hdr b0 = Some RH_AppData /\ 133 + length (content pend) <= L /\ length (wb_buf b0) = L).
  { destruct pend as [p0|]; cbn [content].
    - destruct Hpend as (Hp & Hh & Hfit & R & Hb). exists (wh_wb w), R. unfold wb_contains. rewrite Hh. cbn.
      repeat split; auto; [now destruct w|lia].
    - destruct Hpend as (Hp & Hh). unfold wb_contains. rewrite Hh.
      unfold bind at 1. rewrite (flush_idle C L) by (repeat split; auto).
      unfold on_wb. rewrite (wbuf_eta (wh_wb w)), Hp, Hh. rewrite start_record_ok by lia.
      eexists _, (skipn 5 (wb_buf (wh_wb w))). split; [reflexivity|]. cbn [wb_buf wb_pos wb_hdr length app].
      repeat split; auto; rewrite ?app_length, ?hdr5_length, ?skipn_length; lia. }
  destruct Hpre as (b0 & R & Hpre & Hb0 & Hp0 & Hh0 & Hfit0 & Hl0).
  destruct (append_eval L b0 (content pend) R buf Hb0 Hp0 Hh0 Hfit0 Hl0) as (b' & Ha & Hb' & Hp' & Hh' & Hl').
  fold (accepts_n L pend buf) in Ha, Hb', Hp'. fold n in Ha, Hb', Hp'. fold pl in Hb'.
  assert (Hpl : length pl = length (content pend) + n).
  { unfold pl. rewrite app_length, firstn_length. unfold n, accepts_n. lia. }
  assert (Hw : wh_write C true buf w =
     (full <- lift (wb_is_full b') ;; (if full then wh_flush C else ret tt) ;;; ret n)
       (mk_whalf b' (wh_ks w) (wh_tx w) (wh_policy w))).
  { unfold wh_write. unfold bind at 1, get at 1. unfold bind at 1. rewrite Hpre.
    unfold bind at 1, get at 1. cbn [wh_wb]. unfold bind at 1, lift at 1. rewrite Ha. cbn [snd fst].
    unfold bind at 1, on_wb at 1, put. cbn [wh_ks wh_tx wh_policy]. reflexivity. }
  assert (Hfull : wb_is_full b' = Ok (133 + length pl =? L)).
  { unfold wb_is_full, wb_max_block. rewrite Hl', Hp'. unfold TLS_RECORD_OVERHEAD.
    rewrite usize_sub_ok by lia. cbn [obind]. f_equal.
    apply Bool.eq_true_iff_eq. rewrite !Nat.eqb_eq. lia. }
  unfold bind at 1, lift at 1 in Hw. rewrite Hfull in Hw.
  destruct (133 + length pl =? L) eqn:E.
  - right. apply Nat.eqb_eq in E. split; [exact E|].
    destruct (close_data C L (mk_whalf b' (wh_ks w) (wh_tx w) (wh_policy w)) pl (skipn n R) HC HL Hiv) as (b2 & Hf & Hb2);
      cbn [wh_wb]; auto; [lia|lia|].
    exists b2. split; [|exact Hb2]. rewrite Hw. unfold bind at 1. rewrite Hf. reflexivity.
  - left. apply Nat.eqb_neq in E. assert (133 + length pl < L) by (unfold n, accepts_n in *; lia). split; [assumption|].
    exists b'. split; [exact Hw|]. split; [exact Hl'|].
    repeat split; auto; [lia|]. eauto.
Qed.

(** ** One call on an established connection *)

Lemma prefix_refl {A} (a : list A) : prefix a a.
Proof. exists []. now rewrite app_nil_r. Qed.
Lemma prefix_app_l {A} (a b c : list A) : prefix b c -> prefix (a ++ b) (a ++ c).
Proof. intros [d ->]. exists d. now rewrite app_assoc. Qed.
Lemma prefix_app {A} (a b : list A) : prefix a (a ++ b). Proof. now exists b. Qed.
Lemma prefix_trans {A} (a b c : list A) : prefix a b -> prefix b c -> prefix a c.
Proof. intros [d ->] [e ->]. exists (d ++ e). now rewrite app_assoc. Qed.
Lemma prefix_firstn {A} n (l : list A) : prefix (firstn n l) l.
Proof. exists (skipn n l). now rewrite firstn_skipn. Qed.
Lemma prefix_nil {A} (l : list A) : prefix [] l. Proof. now exists l. Qed.


(** What one call other than close does to the sending side. *)
Inductive send_step (C : crypto) (L : nat) (o : op) (r : outcome tls_error value)
  (w w' : whalf) (pend pend' : option bytes) : Prop :=
| ss_quiet : log_of w' = log_of w -> wh_ks w' = wh_ks w ->
    content pend' = content pend ++ accepted1 o r -> ~ send_fault (o, r) -> send_step C L o r w w' pend pend'
| ss_sent x fl : log_of w' = log_of w ++ TxWrite (data_record C w (content pend ++ x))
                   (length (data_record C w (content pend ++ x))) :: fl ->
    (k_counter (wst w) < u64_max)%N -> wst w' = bump (wst w) ->
    133 + length (content pend ++ x) <= L -> pend' = None ->
    (r = Ok VUnit \/ (exists n, r = Ok (VCount n))) /\ x = accepted1 o r /\
      fl = (if policy_flush_transport (wh_policy w) then [TxFlush] else [])
    \/ send_fault (o, r) /\ fl = [] /\ prefix x (submitted1 o r) /\ ~ tx_ok (wh_tx w) /\ policy_flush_transport (wh_policy w) = true ->
    send_step C L o r w w' pend pend'
| ss_panic x : log_of w' = log_of w ++ [TxWrite (data_record C w (content pend ++ x))
                   (length (data_record C w (content pend ++ x)))] ->
    (u64_max <= k_counter (wst w))%N -> wh_ks w' = wh_ks w -> pend' = None -> r = Panic PUnwrap -> prefix x (submitted1 o r) ->
    133 + length (content pend ++ x) <= L ->
    send_step C L o r w w' pend pend'
| ss_fail x n : log_of w' = log_of w ++ [TxWrite (data_record C w (content pend ++ x)) n] ->
    n <= length (data_record C w (content pend ++ x)) -> wh_ks w' = wh_ks w ->
    133 + length (content pend ++ x) <= L -> pend' = None ->
    ~ wr_ok (wh_tx w) -> send_fault (o, r) -> prefix x (submitted1 o r) ->
    send_step C L o r w w' pend pend'.

Definition same_keys (w w' : whalf) : Prop :=
  k_key (wst w') = k_key (wst w) /\ k_iv (wst w') = k_iv (wst w) /\ k_traffic (wst w') = k_traffic (wst w).

Lemma on_rh_wh {A} (m : M rhalf tls_error A) c : cn_wh (snd (on_rh m c)) = cn_wh c.
Proof. unfold on_rh. now destruct (m _) as [o [r [d op]]]. Qed.

Lemma bind_snd_ret {S A B} (m : M S tls_error A) (f : A -> B) s :
  snd ((x <- m ;; ret (f x)) s) = snd (m s).
Proof. unfold bind, ret. now destruct (m s) as [[] s']. Qed.

Lemma step_send C L o c r c' pend : crypto_ok C -> sending C L (cn_wh c) pend -> is_close o = false ->
  step C o c = (r, c') ->
  exists pend', sending C L (cn_wh c') pend' /\ same_keys (cn_wh c) (cn_wh c') /\
    (tx_ok (wh_tx (cn_wh c)) -> tx_ok (wh_tx (cn_wh c'))) /\
    (wr_ok (wh_tx (cn_wh c)) -> wr_ok (wh_tx (cn_wh c'))) /\
    send_step C L o r (cn_wh c) (cn_wh c') pend pend' /\
    ((forall p, o <> OpSetPolicy p) -> wh_policy (cn_wh c') = wh_policy (cn_wh c)).
Proof.
  intros HC Hs Hcl Hstep.
  assert (Hquiet : cn_wh c' = cn_wh c -> accepted1 o r = [] -> ~ send_fault (o, r) -> exists pend',
    sending C L (cn_wh c') pend' /\ same_keys (cn_wh c) (cn_wh c') /\
    (tx_ok (wh_tx (cn_wh c)) -> tx_ok (wh_tx (cn_wh c'))) /\
    (wr_ok (wh_tx (cn_wh c)) -> wr_ok (wh_tx (cn_wh c'))) /\
    send_step C L o r (cn_wh c) (cn_wh c') pend pend' /\
    ((forall p, o <> OpSetPolicy p) -> wh_policy (cn_wh c') = wh_policy (cn_wh c))).
  { intros -> Ha Hnf. exists pend. split; [assumption|]. split; [repeat split|]. split; [auto|]. split; [auto|].
    split; [|auto]. apply ss_quiet; auto. now rewrite Ha, app_nil_r. }
  assert (Hsend : forall b x f rv, pending L b None -> 133 + length (content pend ++ x) <= L ->
     cn_wh c' = snd (send (data_record C (cn_wh c) (content pend ++ x)) (policy_flush_transport (wh_policy (cn_wh c)))
        (mk_whalf b (wh_ks (cn_wh c)) (wh_tx (cn_wh c)) (wh_policy (cn_wh c)))) ->
     r = obind (fst (send (data_record C (cn_wh c) (content pend ++ x)) (policy_flush_transport (wh_policy (cn_wh c)))
        (mk_whalf b (wh_ks (cn_wh c)) (wh_tx (cn_wh c)) (wh_policy (cn_wh c))))) f ->
     (forall u, f u = Ok rv) -> (rv = VUnit \/ exists n, rv = VCount n) -> x = accepted1 o (Ok rv) ->
     (forall p, o <> OpSetPolicy p) -> is_send o = true ->
     (forall r', send_fault (o, r') \/ r' = Panic PUnwrap -> prefix x (submitted1 o r')) ->
     exists pend', sending C L (cn_wh c') pend' /\ same_keys (cn_wh c) (cn_wh c') /\
      (tx_ok (wh_tx (cn_wh c)) -> tx_ok (wh_tx (cn_wh c'))) /\
      (wr_ok (wh_tx (cn_wh c)) -> wr_ok (wh_tx (cn_wh c'))) /\
      send_step C L o r (cn_wh c) (cn_wh c') pend pend' /\
      ((forall p, o <> OpSetPolicy p) -> wh_policy (cn_wh c') = wh_policy (cn_wh c))).
  { intros b x f rv Hb Hfit Hw Hr Hf Hrv Hx Ho His Hpre. destruct Hs as (HL & Hiv & _).
    set (w1 := mk_whalf b (wh_ks (cn_wh c)) (wh_tx (cn_wh c)) (wh_policy (cn_wh c))) in *.
    destruct (send_cases (data_record C (cn_wh c) (content pend ++ x)) (policy_flush_transport (wh_policy (cn_wh c))) w1)
      as (o1 & w' & He & Hsent & Hwb & Hpol & Htx & Hwr).
    rewrite He in Hw, Hr. cbn [fst snd] in Hw, Hr. rewrite Hw.
    assert (Hkeys : same_keys (cn_wh c) w').
    { unfold same_keys, wst. destruct Hsent as [? ? ? ? ? Hk|? Hk|? Hk|? ? Hk]; rewrite Hk; repeat split. }
    exists None. split.
    { split; [assumption|]. split; [|now rewrite Hwb]. destruct Hkeys as (_ & -> & _). assumption. }
    split; [assumption|]. split; [assumption|]. split; [assumption|]. split; [|auto].
    inversion Hsent as [o2 n Hio Hn Hnok Hk Hlog Eo|Hcnt Hk Hlog Eo|Hcnt Hk Hlog Eo|o2 Hcnt Hk Hio Hst Hnok Hlog Eo];
      subst.
    - assert (Hsf : send_fault (o, obind o1 f)).
      { split; [exact His|]. destruct Hio as [[k ->]| ->]; [left; eexists; reflexivity|now right]. }
      eapply ss_fail; eauto.
    - eapply ss_panic; eauto.
    - cbn [obind]. rewrite Hf. eapply ss_sent; eauto; [unfold wst at 1; now rewrite Hk|].
      left. split; [|auto]. destruct Hrv as [->|[n ->]]; eauto.
    - eapply ss_sent; eauto; [unfold wst at 1; now rewrite Hk|].
      right. assert (Hsf : send_fault (o, obind o1 f)).
      { split; [exact His|]. destruct Hio as [[k ->]| ->]; [left; eexists; reflexivity|now right]. }
      split; [exact Hsf|]. split; [reflexivity|]. split; [now apply Hpre; left|auto]. }
  destruct o as [b| |p|dst| |n|ops fin|]; try discriminate; cbn [step] in Hstep.
  - (* write *)
    unfold cn_write in Hstep. unfold bind at 1 in Hstep. unfold bind at 1, get at 1 in Hstep. unfold on_wh in Hstep.
    destruct (cn_opened c) eqn:Eo.
    2:{ cbn in Hstep. inversion Hstep. subst. apply Hquiet; try reflexivity. intros [_ [[k H]|H]]; discriminate. }
    destruct (write_eval C L (cn_wh c) pend b HC Hs) as [(Hlt & b' & Hev & Hp)|(Hlt & b' & Hev & Hp)].
    + rewrite Hev in Hstep. unfold ret in Hstep. inversion Hstep. subst. cbn [cn_wh].
      destruct Hs as (HL & Hiv & _). eexists. split; [split; [exact HL|split; [exact Hiv|exact Hp]]|].
      split; [repeat split|]. split; [auto|]. split; [auto|]. split; [|auto].
      apply ss_quiet; [reflexivity|reflexivity|reflexivity|]. intros [_ [[k H]|H]]; discriminate.
    + set (n := accepts_n L pend b) in *. rewrite Hev in Hstep.
      eapply (Hsend b' (firstn n b) (fun _ => Ok (VCount n)) (VCount n)); eauto; try discriminate.
      * rewrite Hlt. reflexivity.
      * unfold bind, ret in Hstep. destruct (send _ _ _) as [o1 w1]. destruct o1; inversion Hstep; reflexivity.
      * unfold bind, ret in Hstep. destruct (send _ _ _) as [o1 w1]. destruct o1; inversion Hstep; reflexivity.
      * intros r' [[_ Hio]| ->]; cbn [snd] in *; [destruct Hio as [[k ->]| ->]|]; apply prefix_firstn.
  - (* flush *)
    unfold cn_flush, bind, on_wh in Hstep. destruct pend as [pl|].
    + destruct (flush_pending C L (cn_wh c) pl HC Hs) as (b' & Hev & Hp). rewrite Hev in Hstep.
      assert (Hfit : 133 + length pl < L) by (destruct Hs as (_ & _ & _ & _ & _ & Hfit & _); exact Hfit).
      cbn [content] in *.
      eapply (Hsend b' [] (fun _ => Ok VUnit) VUnit); eauto; try discriminate; try rewrite app_nil_r.
      * lia.
      * destruct (send _ _ _) as [o1 w1]. destruct o1; inversion Hstep; reflexivity.
      * unfold ret in Hstep. destruct (send _ _ _) as [o1 w1]. destruct o1; inversion Hstep; reflexivity.
      * intros. apply prefix_nil.
    + rewrite (flush_idle C L) in Hstep by assumption. unfold ret in Hstep. inversion Hstep. subst.
      apply Hquiet; [now destruct c|reflexivity|]. intros [_ [[k H]|H]]; discriminate.
  - (* set_policy *)
    unfold cn_set_policy, on_wh, bind, modify, ret in Hstep. inversion Hstep. subst. cbn [cn_wh].
    exists pend. split; [exact Hs|]. split; [repeat split|]. split; [auto|]. split; [auto|].
    split; [apply ss_quiet; auto; [cbn; now rewrite app_nil_r|intros [H _]; discriminate]|]. intros Hp'. exfalso. now apply (Hp' p).
  - apply Hquiet; [|reflexivity|intros [H _]; discriminate]. apply (f_equal snd) in Hstep. rewrite bind_snd_ret in Hstep. cbn [snd] in Hstep.
    rewrite <- Hstep. apply on_rh_wh.
  - apply Hquiet; [|reflexivity|intros [H _]; discriminate]. apply (f_equal snd) in Hstep. rewrite bind_snd_ret in Hstep. cbn [snd] in Hstep.
    rewrite <- Hstep. apply on_rh_wh.
  - apply Hquiet; [|reflexivity|intros [H _]; discriminate]. apply (f_equal snd) in Hstep. rewrite bind_snd_ret in Hstep. cbn [snd] in Hstep.
    rewrite <- Hstep. apply on_rh_wh.
  - apply Hquiet; [|reflexivity|intros [H _]; discriminate]. apply (f_equal snd) in Hstep. rewrite bind_snd_ret in Hstep. cbn [snd] in Hstep.
    rewrite <- Hstep. apply on_rh_wh.
Qed.

(** ** Histories *)

(** Records handed over completely, with consecutive sequence numbers. *)
Inductive clean (C : crypto) (key iv : bytes) (L : nat) : N -> list handed -> N -> Prop :=
| clean_nil n : clean C key iv L n [] n
| clean_flush n l m : clean C key iv L n l m -> clean C key iv L n (H_flush :: l) m
| clean_rec n c l m : 133 + length c <= L -> (n < u64_max)%N -> clean C key iv L (n + 1) l m ->
    clean C key iv L n (H_rec n ty_data c (length (rfc_record C key iv n ty_data c 0)) :: l) m.

Lemma clean_app C key iv L a n m p b : clean C key iv L n a m -> clean C key iv L m b p ->
  clean C key iv L n (a ++ b) p.
Proof. induction 1; intros H'; cbn [app]; [assumption|constructor; auto|constructor; auto]. Qed.

Lemma clean_le C key iv L n l m : clean C key iv L n l m -> (n <= m)%N.
Proof. induction 1; lia. Qed.

Lemma clean_max C key iv L n l m : clean C key iv L n l m -> (n <= u64_max)%N -> (m <= u64_max)%N.
Proof. induction 1; intros; auto. apply IHclean. lia. Qed.

Lemma clean_seqs C key iv L n l m : clean C key iv L n l m ->
  NoDup (seqs l) /\ Forall (fun x => n <= x < m)%N (seqs l).
Proof.
  induction 1 as [|n l m H IH|n c l m Hl Hn H IH]; cbn [seqs map concat app].
  - split; constructor.
  - exact IH.
  - fold (seqs l). destruct IH as [IH1 IH2]. split.
    + constructor; [|assumption]. intros Hin. rewrite Forall_forall in IH2. apply IH2 in Hin. lia.
    + pose proof (clean_le _ _ _ _ _ _ _ H). constructor; [lia|].
      eapply Forall_impl; [|exact IH2]. cbn. intros. lia.
Qed.

Lemma contents_app a b : contents (a ++ b) = contents a ++ contents b.
Proof. unfold contents. now rewrite map_app, concat_app. Qed.
Lemma seqs_app a b : seqs (a ++ b) = seqs a ++ seqs b.
Proof. unfold seqs. now rewrite map_app, concat_app. Qed.
Lemma app_data_app a b : app_data (a ++ b) = app_data a ++ app_data b.
Proof. unfold app_data. now rewrite map_app, concat_app. Qed.
Lemma wire_app a b : wire (a ++ b) = wire a ++ wire b.
Proof. unfold wire. now rewrite map_app, concat_app. Qed.

Lemma clean_wire C key iv L lim n l m rest : crypto_ok C -> clean C key iv L n l m ->
  L <= 133 + lim -> (N.of_nat lim < 65519)%N ->
  peer_read C lim key iv n (wire (map (ev C key iv) l) ++ rest)
  = (contents l ++ fst (peer_read C lim key iv m rest), snd (peer_read C lim key iv m rest)).
Proof.
  intros HC H. revert rest. induction H as [|n l m H IH|n c l m Hl Hn H IH]; intros rest HL Hlim;
    cbn [map wire concat contents app ev ev_bytes].
  - now destruct (peer_read _ _ _ _ _ _).
  - fold (wire (map (ev C key iv) l)). now apply IH.
  - fold (wire (map (ev C key iv) l)). fold (contents l). rewrite firstn_all, <- app_assoc.
    rewrite peer_read_record; [|assumption|discriminate|lia|lia]. rewrite IH by assumption. reflexivity.
Qed.

Lemma clean_data C key iv L n l m : clean C key iv L n l m ->
  app_data (contents l) = concat (map snd (contents l)).
Proof.
  induction 1 as [|n l m H IH|n c l m Hl Hn H IH]; [reflexivity|exact IH|].
  cbn [contents map concat app]. fold (contents l).
  unfold app_data in *. cbn [map concat fst snd]. f_equal. exact IH.
Qed.

(** One step, as events at the transport. *)
Lemma step_handed C L o r w w' pend pend' : send_step C L o r w w' pend pend' ->
  let key := k_key (wst w) in let iv := k_iv (wst w) in let n := k_counter (wst w) in
  exists hs tail, log_of w' = log_of w ++ map (ev C key iv) (hs ++ tail) /\
   clean C key iv L n hs (k_counter (wst w')) /\
   (tail = [] \/
    (exists c k, tail = [H_rec (k_counter (wst w')) ty_data c k] /\ 133 + length c <= L /\
       k <= length (rfc_record C key iv (k_counter (wst w')) ty_data c 0) /\ hs = [] /\
       (r = Panic PUnwrap /\ (u64_max <= n)%N \/ send_fault (o, r) /\ ~ wr_ok (wh_tx w)) /\
       exists x, c = content pend ++ x)) /\
   (tail = [] -> ~ send_fault (o, r) -> app_data (contents hs) ++ content pend' = content pend ++ accepted1 o r) /\
   prefix (app_data (contents (hs ++ tail))) (content pend ++ submitted1 o r).
Proof.
  intros H key iv n. destruct H as [Hl Hk Hc Hnf0|x fl Hl Hn Hk Hf Hp Hr|x Hl Hn Hk Hp Hr Hpr Hf|x k Hl Hkn Hk Hf Hp Hw Hr Hpr].
  - exists [], []. cbn [map app]. rewrite app_nil_r. split; [exact Hl|]. split; [unfold wst; rewrite Hk; constructor|].
    split; [now left|]. split; [intros _ _; exact Hc|apply prefix_nil].
  - assert (Hfl : fl = [] \/ fl = [TxFlush]).
    { destruct Hr as [(_ & _ & ->)|(_ & -> & _)]; [destruct (policy_flush_transport _)|]; auto. }
    exists (H_rec n ty_data (content pend ++ x) (length (rfc_record C key iv n ty_data (content pend ++ x) 0))
       :: match fl with [] => [] | _ => [H_flush] end), [].
    rewrite app_nil_r. split.
    { rewrite Hl. cbn [map ev]. f_equal. f_equal. destruct Hfl as [-> | ->]; reflexivity. }
    split.
    { rewrite Hk. cbn [bump k_counter]. apply clean_rec; auto. destruct Hfl as [-> | ->]; repeat constructor. }
    split; [now left|]. split.
    { intros _ Hnf. destruct Hr as [(_ & Hx & _)|(Hio & _)]; [|contradiction].
      subst pend'. cbn [content]. rewrite app_nil_r, <- Hx.
      destruct Hfl as [-> | ->]; cbn; now rewrite app_nil_r. }
    replace (app_data _) with (content pend ++ x) by (destruct Hfl as [-> | ->]; cbn; now rewrite app_nil_r).
    apply prefix_app_l. destruct Hr as [(Hr & Hx & _)|(_ & _ & Hx & _)]; [|exact Hx].
    rewrite Hx. destruct Hr as [->|[m ->]]; destruct o; apply prefix_refl || apply prefix_nil.
  - exists [], [H_rec n ty_data (content pend ++ x) (length (rfc_record C key iv n ty_data (content pend ++ x) 0))].
    split; [exact Hl|]. assert (Hc' : k_counter (wst w') = n) by (unfold n, wst; now rewrite Hk). rewrite Hc'. split; [constructor|].
    split; [|split; [discriminate|cbn; rewrite app_nil_r; now apply prefix_app_l]].
    right. do 2 eexists. split; [reflexivity|]. split; [exact Hf|]. split; [apply le_n|].
    split; [reflexivity|]. split; [left; auto|eauto].
  - exists [], [H_rec n ty_data (content pend ++ x) k].
    split; [exact Hl|]. assert (Hc' : k_counter (wst w') = n) by (unfold n, wst; now rewrite Hk). rewrite Hc'. split; [constructor|].
    split; [|split; [discriminate|cbn; rewrite app_nil_r; now apply prefix_app_l]].
    right. do 2 eexists. split; [reflexivity|]. split; [exact Hf|]. split; [exact Hkn|].
    split; [reflexivity|]. split; [right; auto|eauto].
Qed.

Lemma run_cons C o ops c r c1 : step C o c = (r, c1) ->
  run C (o :: ops) c = match o, r with
      | OpClose, _ | _, Panic _ | _, Diverge => ([(o, r)], c1)
      | _, _ => let '(rs, c'') := run C ops c1 in ((o, r) :: rs, c'')
      end.
Proof. intros H. cbn [run]. now rewrite H. Qed.

(** The call ends the history. *)
Definition stops (o : op) (r : outcome tls_error value) : bool :=
  match o, r with
  | OpClose, _ | _, Panic _ | _, Diverge => true
  | _, _ => false
  end.

Lemma run_cons' C o ops c r c1 : step C o c = (r, c1) ->
  run C (o :: ops) c = if stops o r then ([(o, r)], c1)
                       else ((o, r) :: fst (run C ops c1), snd (run C ops c1)).
Proof.
  intros H. cbn [run]. rewrite H. destruct (run C ops c1) as [rs c2].
  destruct o, r; reflexivity.
Qed.

Lemma send_fault_dec o r : {send_fault (o, r)} + {~ send_fault (o, r)}.
Proof.
  unfold send_fault, io_fault. cbn [fst snd].
  destruct (is_send o); [|right; intros [H _]; discriminate].
  destruct r as [v|e| | |]; try (right; intros [_ [[k H]|H]]; discriminate).
  - destruct e; try (right; intros [_ [[k' H]|H]]; discriminate). left. split; [reflexivity|]. left. eauto.
  - left. split; auto.
Qed.

(** A transport that does not fail. *)
Lemma run_happy C L : crypto_ok C -> forall ops c rs c' pend,
  sending C L (cn_wh c) pend -> tx_ok (wh_tx (cn_wh c)) -> forallb (fun o => negb (is_close o)) ops = true ->
  (k_counter (wst (cn_wh c)) + N.of_nat (length ops) <= u64_max)%N ->
  run C ops c = (rs, c') ->
  exists hs pend',
    sending C L (cn_wh c') pend' /\ tx_ok (wh_tx (cn_wh c')) /\ same_keys (cn_wh c) (cn_wh c') /\
    log_of (cn_wh c') = log_of (cn_wh c) ++ map (ev C (k_key (wst (cn_wh c))) (k_iv (wst (cn_wh c)))) hs /\
    clean C (k_key (wst (cn_wh c))) (k_iv (wst (cn_wh c))) L (k_counter (wst (cn_wh c))) hs (k_counter (wst (cn_wh c'))) /\
    (k_counter (wst (cn_wh c')) <= k_counter (wst (cn_wh c)) + N.of_nat (length ops))%N /\
    app_data (contents hs) ++ content pend' = content pend ++ accepted rs /\
    Forall (fun p => ~ send_fault p) rs.
Proof.
  intros HC. induction ops as [|o ops IH]; intros c rs c' pend Hs Htx Hcl Hcnt Hrun.
  - cbn [run] in Hrun. inversion Hrun. subst. exists [], pend.
    split; [exact Hs|]. split; [exact Htx|]. split; [repeat split|]. cbn [map]. rewrite app_nil_r.
    split; [reflexivity|]. split; [constructor|]. split; [lia|]. cbn. rewrite app_nil_r. split; [reflexivity|constructor].
  - cbn [forallb] in Hcl. apply andb_prop in Hcl as [Hc1 Hcl]. apply negb_true_iff in Hc1.
    destruct (step C o c) as [r c1] eqn:Estep. rewrite (run_cons' _ _ _ _ _ _ Estep) in Hrun.
    destruct (step_send C L o c r c1 pend HC Hs Hc1 Estep) as (pend1 & Hs1 & Hk1 & Htx1 & _ & Hst & _).
    assert (Hnf : ~ send_fault (o, r)).
    { destruct Hst as [Hl Hk Hc Hnf0|x fl Hl Hn Hk Hf Hp Hr|x Hl Hn Hk Hp Hr Hpr Hf|x k Hl Hkn Hk Hf Hp Hw Hr Hpr].
      - exact Hnf0.
      - destruct Hr as [([->|[n ->]] & _)|(_ & _ & _ & Hn' & _)]; [| |contradiction];
          intros [_ [[k H]|H]]; discriminate.
      - subst. intros [_ [[k H]|H]]; discriminate.
      - exfalso. apply Hw, Htx. }
    destruct (step_handed C L o r (cn_wh c) (cn_wh c1) pend pend1 Hst) as (hs & tail & Hlog & Hcl1 & Htail & Hdata & _).
    destruct Htail as [->|(x & k & _ & _ & _ & _ & [[_ Hmax]|[Hf _]] & _)].
    2:{ exfalso. cbn [length] in Hcnt. lia. }
    2:{ contradiction. }
    rewrite app_nil_r in Hlog. specialize (Hdata eq_refl Hnf).
    assert (Hcle : (k_counter (wst (cn_wh c1)) <= k_counter (wst (cn_wh c)) + 1)%N).
    { clear - Hst. destruct Hst as [Hl Hk Hc Hnf0|x fl Hl Hn Hk Hf Hp Hr|x Hl Hn Hk Hp Hr Hpr Hf|x k Hl Hkn Hk Hf Hp Hw Hr Hpr];
        unfold wst in *; rewrite Hk; cbn; lia. }
    destruct (stops o r) eqn:Est.
    + inversion Hrun. subst. exists hs, pend1.
      split; [assumption|]. split; [auto|]. split; [assumption|]. split; [assumption|]. split; [assumption|].
      split; [cbn [length]; lia|]. split; [unfold accepted; cbn; now rewrite app_nil_r|]. repeat constructor; auto.
    + inversion Hrun. subst. clear Hrun.
      destruct Hk1 as (Hkey & Hiv & Htr).
      destruct (IH c1 (fst (run C ops c1)) (snd (run C ops c1)) pend1 Hs1 (Htx1 Htx) Hcl) as
        (hs2 & pend2 & Hs2 & Htx2 & (Hkey2 & Hiv2 & Htr2) & Hlog2 & Hcl2 & Hcn2 & Hd2 & Hnf2).
      { cbn [length] in Hcnt. lia. }
      { now destruct (run C ops c1). }
      rewrite Hkey, Hiv in *.
      exists (hs ++ hs2), pend2. split; [assumption|]. split; [assumption|]. split; [repeat split; congruence|].
      split; [rewrite Hlog2, Hlog, map_app, app_assoc; reflexivity|].
      split; [eapply clean_app; eauto|].
      split; [cbn [length]; lia|].
      split; [|constructor; auto].
      rewrite contents_app, app_data_app, <- app_assoc, Hd2, app_assoc, Hdata.
      unfold accepted. cbn [map concat fst snd]. now rewrite <- app_assoc.
Qed.

Lemma removelast_cons {A} (a b : A) l : removelast (a :: b :: l) = a :: removelast (b :: l).
Proof. reflexivity. Qed.



(** Any transport, as long as no sending call before the last one reported a transport
    failure, or no [write_all] fails. *)
Lemma run_gen C L : crypto_ok C -> forall ops c rs c' pend,
  sending C L (cn_wh c) pend -> forallb (fun o => negb (is_close o)) ops = true ->
  run C ops c = (rs, c') ->
  wr_ok (wh_tx (cn_wh c)) \/ Forall (fun p => ~ send_fault p) (removelast rs) ->
  exists hs tail pend',
    sending C L (cn_wh c') pend' /\ same_keys (cn_wh c) (cn_wh c') /\
    log_of (cn_wh c') = log_of (cn_wh c) ++ map (ev C (k_key (wst (cn_wh c))) (k_iv (wst (cn_wh c)))) (hs ++ tail) /\
    clean C (k_key (wst (cn_wh c))) (k_iv (wst (cn_wh c))) L (k_counter (wst (cn_wh c))) hs (k_counter (wst (cn_wh c'))) /\
    (tail = [] \/ exists x k, tail = [H_rec (k_counter (wst (cn_wh c'))) ty_data x k] /\ 133 + length x <= L /\
        k <= length (rfc_record C (k_key (wst (cn_wh c))) (k_iv (wst (cn_wh c))) (k_counter (wst (cn_wh c'))) ty_data x 0)) /\
    (wr_ok (wh_tx (cn_wh c)) -> wr_ok (wh_tx (cn_wh c'))) /\
    (wr_ok (wh_tx (cn_wh c)) \/ Forall (fun p => ~ send_fault p) rs ->
       tail = [] \/ exists ops1 o1, rs = ops1 ++ [(o1, Panic PUnwrap)]) /\
    (Forall (fun p => ~ send_fault p) (removelast rs) ->
       prefix (app_data (contents (hs ++ tail))) (content pend ++ submitted rs)).
Proof.
  intros HC. induction ops as [|o ops IH]; intros c rs c' pend Hs Hcl Hrun Hsafe.
  - cbn [run] in Hrun. inversion Hrun. subst. exists [], [], pend. cbn [map app]. rewrite app_nil_r.
    split; [exact Hs|]. split; [repeat split|]. split; [reflexivity|]. split; [constructor|].
    split; [auto|]. split; [auto|]. split; [auto|]. intros _. apply prefix_nil.
  - cbn [forallb] in Hcl. apply andb_prop in Hcl as [Hc1 Hcl]. apply negb_true_iff in Hc1.
    destruct (step C o c) as [r c1] eqn:Estep. rewrite (run_cons' _ _ _ _ _ _ Estep) in Hrun.
    destruct (step_send C L o c r c1 pend HC Hs Hc1 Estep) as (pend1 & Hs1 & Hk1 & _ & Hwr1 & Hst & _).
    destruct (step_handed C L o r (cn_wh c) (cn_wh c1) pend pend1 Hst) as (hs & tail & Hlog & Hcl1 & Htail & Hdata & Hpre).
    assert (Hlast : (rs, c') = ([(o, r)], c1) ->
      exists hs tail pend',
      sending C L (cn_wh c') pend' /\ same_keys (cn_wh c) (cn_wh c') /\
      log_of (cn_wh c') = log_of (cn_wh c) ++ map (ev C (k_key (wst (cn_wh c))) (k_iv (wst (cn_wh c)))) (hs ++ tail) /\
      clean C (k_key (wst (cn_wh c))) (k_iv (wst (cn_wh c))) L (k_counter (wst (cn_wh c))) hs (k_counter (wst (cn_wh c'))) /\
      (tail = [] \/ exists x k, tail = [H_rec (k_counter (wst (cn_wh c'))) ty_data x k] /\ 133 + length x <= L /\
        k <= length (rfc_record C (k_key (wst (cn_wh c))) (k_iv (wst (cn_wh c))) (k_counter (wst (cn_wh c'))) ty_data x 0)) /\
      (wr_ok (wh_tx (cn_wh c)) -> wr_ok (wh_tx (cn_wh c'))) /\
      (wr_ok (wh_tx (cn_wh c)) \/ Forall (fun p => ~ send_fault p) rs ->
       tail = [] \/ exists ops1 o1, rs = ops1 ++ [(o1, Panic PUnwrap)]) /\
      (Forall (fun p => ~ send_fault p) (removelast rs) ->
       prefix (app_data (contents (hs ++ tail))) (content pend ++ submitted rs))).
    { intros E. inversion E. subst. exists hs, tail, pend1. split; [assumption|]. split; [assumption|].
      split; [assumption|]. split; [assumption|]. split; [|split; [assumption|split]].
      3:{ intros _. unfold submitted. cbn [map concat fst snd]. rewrite app_nil_r. exact Hpre. }
      - destruct Htail as [->|(x & k & -> & Hx & Hk & _)]; eauto 8.
      - intros Hnf.
        destruct Htail as [->|(x & k & -> & Hx & Hk & _ & [[-> _]|[Hf Hfw]] & _)]; [auto| |].
        + right. exists [], o. reflexivity.
        + exfalso. destruct Hnf as [Hnf|Hnf]; [contradiction|]. inversion Hnf. contradiction. }
    destruct (stops o r) eqn:Est; [now apply Hlast|].
    destruct ops as [|o2 ops].
    { cbn [run fst snd] in Hrun. now apply Hlast. }
    clear Hlast.
    assert (Hrs : rs = (o, r) :: fst (run C (o2 :: ops) c1)) by (apply (f_equal fst) in Hrun; symmetry; exact Hrun).
    assert (Hc' : c' = snd (run C (o2 :: ops) c1)) by (apply (f_equal snd) in Hrun; symmetry; exact Hrun).
    subst rs c'. clear Hrun.
    assert (Hrs2 : exists x l, fst (run C (o2 :: ops) c1) = x :: l).
    { destruct (step C o2 c1) as [r2 c2] eqn:E2. rewrite (run_cons' _ _ _ _ _ _ E2).
      destruct (stops o2 r2); cbn [fst]; eauto. }
    destruct Hrs2 as (x0 & l0 & Hrs2).
    assert (Hnf : tail = []).
    { destruct Htail as [->|(x & k & _ & _ & _ & _ & [[-> _]|[Hf Hw]] & _)]; [reflexivity| |].
      - destruct o; discriminate.
      - exfalso. destruct Hsafe as [Hsafe|Hsafe]; [contradiction|].
        rewrite Hrs2, removelast_cons in Hsafe. inversion Hsafe. contradiction. }
    subst tail. rewrite app_nil_r in Hlog.
    destruct Hk1 as (Hkey & Hiv & Htr).
    destruct (IH c1 (fst (run C (o2 :: ops) c1)) (snd (run C (o2 :: ops) c1)) pend1 Hs1 Hcl) as
      (hs2 & tail2 & pend2 & Hs2 & (Hkey2 & Hiv2 & Htr2) & Hlog2 & Hcl2 & Htail2 & Hwr2 & Hp2 & Hpre2).
    { now destruct (run C (o2 :: ops) c1). }
    { destruct Hsafe as [Hsafe|Hsafe]; [left; auto|right].
      rewrite Hrs2, removelast_cons in Hsafe. rewrite Hrs2. now inversion Hsafe. }
    rewrite Hkey, Hiv in *.
    exists (hs ++ hs2), tail2, pend2. split; [assumption|]. split; [repeat split; congruence|].
    split; [rewrite Hlog2, Hlog, !map_app, !app_assoc; reflexivity|].
    split; [eapply clean_app; eauto|]. split; [assumption|]. split; [auto|].
    split.
    2:{ intros Hall. rewrite Hrs2, removelast_cons in Hall.
        pose proof (Forall_inv Hall) as Hn1. pose proof (Forall_inv_tail Hall) as Hall2. rewrite <- Hrs2 in Hall2. specialize (Hpre2 Hall2).
        rewrite <- app_assoc, contents_app, app_data_app.
        unfold submitted. cbn [map concat fst snd]. fold (submitted (fst (run C (o2 :: ops) c1))).
        assert (Hsub : submitted1 o r = accepted1 o r).
        { unfold send_fault in Hn1. cbn [fst snd] in Hn1. clear - Hn1 Est.
          destruct o, r as [v|e| | |]; try reflexivity; try discriminate.
          - destruct e; try reflexivity. exfalso. apply Hn1. split; [reflexivity|left; eauto].
          - exfalso. apply Hn1. split; [reflexivity|now right]. }
        rewrite Hsub, app_assoc, <- (Hdata eq_refl Hn1), <- app_assoc. now apply prefix_app_l. }
    intros Hall. assert (Hall2 : wr_ok (wh_tx (cn_wh c1)) \/ Forall (fun p => ~ send_fault p) (fst (run C (o2 :: ops) c1))).
    { destruct Hall as [Hall|Hall]; [auto|]. right. now inversion Hall. }
    destruct (Hp2 Hall2) as [->|(ops1 & o1 & ->)]; [auto|].
    right. exists ((o, r) :: ops1), o1. reflexivity.
Qed.
