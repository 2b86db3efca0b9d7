(** * C19, C20, C21, C23: records, buffering, flushing and closing *)
From Coq Require Import String List NArith Arith Bool Lia ZArith.
From Coq.Strings Require Import Byte.
From Coq Require Import ZifyBool ZifyNat ZifyN.
From Verif Require Import Base Buffer Codes Extensions Crypto KeySchedule Config Handshake Record WriteBuffer
  Transport RecordReader ReadBuffer Connection Api
  BaseProofs SpecWire WireProofs SpecKeys KeyProofs SpecRecord RecordProofs SpecSend SendProofs SpecHello HelloProofs PropHello
  HsWrite HsProofs ConnProofs SpecSession FlagProofs PropSession Toy ToyRun PropSend.
Import ListNotations.
Local Open Scope list_scope.

Ltac Zify.zify_post_hook ::= Z.div_mod_to_equations.

(** ** How far the counter gets *)

Lemma step_counter C L o c r c' pend : crypto_ok C -> sending C L (cn_wh c) pend -> is_close o = false ->
  step C o c = (r, c') -> (k_counter (wst (cn_wh c')) <= k_counter (wst (cn_wh c)) + 1)%N.
Proof.
  intros HC Hs Hc Hst. destruct (step_send C L o c r c' pend HC Hs Hc Hst) as (p' & _ & _ & _ & _ & Hss & _).
  destruct Hss as [_ Hk _ _|x fl _ _ Hk _ _ _|x _ _ Hk _ _ _ _|x n _ _ Hk _ _ _ _ _]; unfold wst in *; rewrite Hk; cbn; lia.
Qed.

Lemma run_counter C L : crypto_ok C -> forall ops c rs c' pend, sending C L (cn_wh c) pend -> no_close ops ->
  run C ops c = (rs, c') -> (k_counter (wst (cn_wh c')) <= k_counter (wst (cn_wh c)) + N.of_nat (length ops))%N.
Proof.
  intros HC. induction ops as [|o ops IH]; intros c rs c' pend Hs Hcl Hrun; [inversion Hrun; cbn; lia|].
  unfold no_close in Hcl. cbn [forallb] in Hcl. apply andb_prop in Hcl as [Hc1 Hcl]. apply negb_true_iff in Hc1.
  destruct (step C o c) as [r c1] eqn:E. rewrite (run_cons' _ _ _ _ _ _ E) in Hrun.
  pose proof (step_counter C L o c r c1 pend HC Hs Hc1 E) as H1.
  destruct (step_send C L o c r c1 pend HC Hs Hc1 E) as (p' & Hs1 & _).
  cbn [length]. destruct (stops o r).
  - inversion Hrun. subst. lia.
  - destruct (run C ops c1) as [rs1 c2] eqn:Er. inversion Hrun. subst. specialize (IH _ _ _ _ Hs1 Hcl Er). lia.
Qed.

(** Everything known about a connection after the calls [ops]. *)
Lemma after_calls C L c0 ops rs c : crypto_ok C -> established C L c0 -> 133 <= L -> no_close ops ->
  run C ops c0 = (rs, c) ->
  exists pend, sending C L (cn_wh c) pend /\ length (content pend) = fill (started (L - 133) rs) /\
    (pend = None <-> started (L - 133) rs = None) /\
    wh_policy (cn_wh c) = policy_of rs /\ (k_counter (wst (cn_wh c)) <= N.of_nat (length ops))%N /\
    (not_closed rs -> cn_opened c = true).
Proof.
  intros HC He HL Hcl Hrun. destruct (established_facts C L c0 HC He) as (_ & H0 & Hop & Hpol & _).
  pose proof (established_sending C L c0 HC HL He) as Hs.
  destruct (run_started C L HC ops c0 rs c None Hs Hcl Hrun) as (pend & Hs1 & Hst & Hpl).
  pose proof (run_counter C L HC ops c0 rs c None Hs Hcl Hrun) as Hcnt. rewrite H0 in Hcnt.
  cbn [option_map] in Hst. fold (started (L - 133) rs) in Hst.
  exists pend. split; [exact Hs1|]. split; [rewrite <- Hst; now destruct pend|].
  split; [rewrite <- Hst; destruct pend; cbn; split; congruence|].
  split; [rewrite Hpl, Hpol; reflexivity|]. split; [lia|].
  intros Hn. now rewrite (run_open C ops c0 rs c Hrun Hn).
Qed.

(** ** C20 *)

(** One [write] on a connection with a session, whatever was called before: it accepts the
    part of [b] that fits the record of [L - 133] bytes being filled, nothing is sent unless
    the record is now full, and then exactly one record is; it does not panic, and fails only if
    the transport does.  With [L >= 134] a non-empty write makes progress. *)
Theorem C20_write : forall C L c0 ops rs c b r c',
  crypto_ok C -> established C L c0 -> 133 <= L -> no_close ops ->
  (N.of_nat (length ops) < u64_max)%N ->
  run C ops c0 = (rs, c) -> not_closed rs -> step C (OpWrite b) c = (r, c') ->
  let f := fill (started (L - 133) rs) in
  let n := Nat.min (length b) (L - 133 - f) in
  (f + n < L - 133 -> r = Ok (VCount n) /\ sent_log c' = sent_log c) /\
  (f + n = L - 133 -> exists x k fl, length x = L - 133 /\
      sent_log c' = sent_log c ++ TxWrite (rfc_record C (write_key c) (write_iv c) (k_counter (w_state (wh_ks (cn_wh c)))) ty_data x 0) k :: fl /\
      (r = Ok (VCount n) \/ io_fault r /\ ~ transport_succeeds c)) /\
  (134 <= L -> b <> [] -> 0 < n) /\
  cn_rd c' = cn_rd c /\ cn_dec c' = cn_dec c.
Proof.
  intros C L c0 ops rs c b r c' HC He HL Hcl Hmax Hrun Hn Hst f n.
  destruct (after_calls C L c0 ops rs c HC He HL Hcl Hrun) as (pend & Hs & Hf & _ & _ & Hcnt & Hop).
  specialize (Hop Hn). pose proof (write_exact C L c b r c' pend HC Hs Hop Hst) as Hw. cbv zeta in Hw.
  rewrite Hf in Hw. fold f in Hw. fold n in Hw. destruct Hw as (Hlen & Hcase).
  split; [|split; [|split; [|split]]].
  - intros Hlt. destruct Hcase as [(_ & Hr & Hlog & _)|(E & _)]; [auto|lia].
  - intros Heq. destruct Hcase as [(Hlt & _)|(_ & _ & Hh)]; [lia|].
    destruct Hh as (k & fl & Hlog & Hk & Hr). do 3 eexists. split; [rewrite <- Heq; exact Hlen|]. split; [exact Hlog|].
    destruct Hr as [(-> & _)|(_ & [[Hio Htx]|[_ Hbig]])]; [now left|right; split; [exact Hio|exact Htx]|lia].
  - intros HL2 Hb. assert (f < L - 133).
    { unfold f. rewrite <- Hf. destruct Hs as (_ & _ & Hp). destruct pend as [pl|]; cbn [content length]; [|lia].
      destruct Hp as (_ & _ & _ & Hp & _). lia. }
    destruct b; [contradiction|]. unfold n. cbn [length]. lia.
  - cbn [step] in Hst. unfold cn_write, bind, get, on_wh, ret in Hst. destruct (wh_write _ _ _ _) as [o w].
    destruct o; inversion Hst; reflexivity.
  - cbn [step] in Hst. unfold cn_write, bind, get, on_wh, ret in Hst. destruct (wh_write _ _ _ _) as [o w].
    destruct o; inversion Hst; reflexivity.
Qed.

(** Reads and policy changes send nothing. *)
Theorem C20_only_sending_calls_send : forall C o c r c', is_send o = false -> step C o c = (r, c') ->
  sent_log c' = sent_log c.
Proof.
  intros C o c r c' Ho Hst. unfold sent_log.
  assert (H : wh_tx (cn_wh c') = wh_tx (cn_wh c)); [|now rewrite H].
  destruct o; try discriminate; cbn [step] in Hst.
  - unfold cn_set_policy, bind, on_wh, modify, ret in Hst. inversion Hst. reflexivity.
  - apply (f_equal snd) in Hst. rewrite bind_snd_ret in Hst. cbn [snd] in Hst. now rewrite <- Hst, on_rh_wh.
  - apply (f_equal snd) in Hst. rewrite bind_snd_ret in Hst. cbn [snd] in Hst. now rewrite <- Hst, on_rh_wh.
  - apply (f_equal snd) in Hst. rewrite (bind_snd_ret _ (fun _ => VUnit)) in Hst. cbn [snd] in Hst. now rewrite <- Hst, on_rh_wh.
  - apply (f_equal snd) in Hst. rewrite bind_snd_ret in Hst. cbn [snd] in Hst. now rewrite <- Hst, on_rh_wh.
Qed.

(** A handshake that succeeds began with a ClientHello that fitted the write buffer. *)
Lemma open_hello_fits {V} C (p : provider V) cfg v rbuf wbuf rx tx c0 c : crypto_ok C -> length (p_random p) = 32 ->
  cn_new C rbuf wbuf rx tx = Ok c0 -> cn_open C p cfg v c0 = (Ok tt, c) ->
  hello_size cfg (length (c_pub C (p_secret p))) (hash_len C) <= length wbuf.
Proof.
  intros HC Hr Hn Ho.
  destruct (cn_new_idle C _ _ _ _ _ Hn) as (Hid & _). remember (length wbuf) as L eqn:HL.
  destruct (open_ok C p cfg L v c0 tt c HC Hid Ho) as (v' & c1 & h' & _ & Hrun & _).
  inversion Hrun as [|s c2 h2 s1 c3 h3 c4 h4 Hstep Hrest]; subst.
  inversion Hstep as [c5 h5 k1 msg c6 Hk Hsend| | | | |]; subst.
  destruct Hsend as (Hpl & _ & _ & _ & _ & _ & _ & _ & _ & Hle).
  cbn [payload_of] in Hpl. unfold rec_wire in Hle. cbn [cr_header rh_is_encrypted] in Hle.
  assert (Hlen : exists b, length b = binders_room C (mk_ch cfg (p_random p) (p_secret p)) /\
     msg = hello_image C (mk_ch cfg (p_random p) (p_secret p)) b).
  { unfold hello_msg in Hpl. unfold binders_room. cbn [ch_config] in *. destruct (cfg_psk cfg) as [[k ids]|].
    - destruct Hpl as (bk & vd & _ & Hv & ->). eexists. split; [|reflexivity].
      assert (Hvl : length vd = hash_len C).
      { unfold rfc_verify_data in Hv. destruct (rfc_expand_label _ _ _ _ _); [|discriminate]. inversion Hv. apply (ok_hmac_len C HC). }
      clear - Hvl. induction ids as [|i ids IH]; [cbn; lia|]. cbn [map repeat concat length]. rewrite app_length, IH.
      unfold vec. rewrite app_length, uint_length, Hvl. lia.
    - exists []. split; [reflexivity|exact Hpl]. }
  destruct Hlen as (b & Hb & ->).
  pose proof (hello_image_length C (mk_ch cfg (p_random p) (p_secret p)) b Hr Hb) as Hi. cbn [ch_secret ch_config] in Hi.
  unfold vec in Hle. rewrite !app_length, !uint_length in Hle. lia.
Qed.

(** Every established connection has a write buffer in which its ClientHello fitted; with the
    uncompressed P-256 keys the crate uses (65 bytes) that alone gives [134 <= L]. *)
Theorem C20_room : forall C L c, crypto_ok C -> (forall s, length (c_pub C s) = 65) -> established C L c ->
  152 <= L.
Proof.
  intros C L c HC Hpub (V & p & cfg & v & rbuf & wbuf & rx & tx & c0 & Hr & Hn & HL & Ho).
  pose proof (open_hello_fits C p cfg v rbuf wbuf rx tx c0 c HC Hr Hn Ho) as H.
  rewrite Hpub in H. unfold hello_size in H. lia.
Qed.

(** With a write buffer of exactly 133 bytes no write is ever refused and none makes progress. *)
Theorem C20_133_never_progresses : forall C c0 ops rs c b r c', crypto_ok C -> established C 133 c0 -> no_close ops ->
  run C ops c0 = (rs, c) -> not_closed rs -> step C (OpWrite b) c = (r, c') -> forall n, r = Ok (VCount n) -> n = 0.
Proof.
  intros C c0 ops rs c b r c' HC He Hcl Hrun Hn Hst m Hr.
  destruct (after_calls C 133 c0 ops rs c HC He (le_n _) Hcl Hrun) as (pend & Hs & Hf & _ & _ & _ & Hop).
  pose proof (write_exact C 133 c b r c' pend HC Hs (Hop Hn) Hst) as (_ & [(Hlt & Hr' & _)|(_ & _ & Hh)]).
  - rewrite Hr' in Hr. inversion Hr. lia.
  - destruct Hh as (k & fl & _ & _ & [(E & _)|(_ & [[Hio _]|[E _]])]).
    + rewrite E in Hr. inversion Hr. lia.
    + rewrite Hr in Hio. destruct Hio as [[? E]|E]; discriminate.
    + rewrite E in Hr. discriminate.
Qed.

Example C20_example : established toy 300 conn_300 /\ no_close [OpWrite (repeat x41 100)] /\
  fill (started 167 (fst (run toy [OpWrite (repeat x41 100)] conn_300))) = 100 /\
  fst (step toy (OpWrite (repeat x42 90)) (snd (run toy [OpWrite (repeat x41 100)] conn_300))) = Ok (VCount 67).
Proof. split; [exact conn_300_established|]. split; [reflexivity|]. split; vm_compute; reflexivity. Qed.

(** ** C21 *)

(** A successful [write] or [flush] sends nothing or one record, followed by a transport
    flush exactly under the Strict policy. *)
Theorem C21_flush_policy : forall C L c0 ops rs c o v c',
  crypto_ok C -> established C L c0 -> 133 <= L -> no_close ops -> run C ops c0 = (rs, c) ->
  is_close o = false -> step C o c = (Ok v, c') ->
  exists new, sent_log c' = sent_log c ++ new /\
    (new = [] \/ exists rec, new = TxWrite rec (length rec) :: match policy_of rs with Strict => [TxFlush] | Relaxed => [] end).
Proof.
  intros C L c0 ops rs c o v c' HC He HL Hcl Hrun Ho Hst.
  destruct (after_calls C L c0 ops rs c HC He HL Hcl Hrun) as (pend & Hs & _ & _ & Hpol & _).
  destruct (step_send C L o c (Ok v) c' pend HC Hs Ho Hst) as (p' & _ & _ & _ & _ & Hss & _).
  destruct Hss as [Hl _ _ _|x fl Hl _ _ _ _ Hr|x _ _ _ _ E _ _|x n _ _ _ _ _ _ [_ Hio] _].
  - exists []. split; [now rewrite app_nil_r|now left].
  - eexists. split; [exact Hl|]. right. eexists. f_equal.
    destruct Hr as [(_ & _ & ->)|([_ Hio] & _)]; [rewrite Hpol; now destruct (policy_of rs)|].
    destruct Hio as [[? E]|E]; discriminate.
  - discriminate.
  - destruct Hio as [[? E]|E]; discriminate.
Qed.

(** [flush] with nothing started does nothing at all. *)
Theorem C21_empty_flush : forall C L c0 ops rs c r c',
  crypto_ok C -> established C L c0 -> 133 <= L -> no_close ops -> run C ops c0 = (rs, c) ->
  started (L - 133) rs = None -> step C OpFlush c = (r, c') -> r = Ok VUnit /\ c' = c.
Proof.
  intros C L c0 ops rs c r c' HC He HL Hcl Hrun Hst0 Hst.
  destruct (after_calls C L c0 ops rs c HC He HL Hcl Hrun) as (pend & Hs & _ & Hno & _).
  apply Hno in Hst0. subst pend. now destruct (flush_exact C L c r c' None HC Hs Hst).
Qed.

(** Records, each written in full and followed by a flush. *)
Inductive flushed_records : list tx_event -> Prop :=
| fr_nil : flushed_records []
| fr_cons b l : flushed_records l -> flushed_records (TxWrite b (length b) :: TxFlush :: l).

(** [open]: every flight is flushed, whatever the policy. *)
Theorem C21_open_flushes : forall C V (p : provider V) cfg v rbuf wbuf rx tx c0 c,
  crypto_ok C -> cn_new C rbuf wbuf rx tx = Ok c0 -> cn_open C p cfg v c0 = (Ok tt, c) ->
  exists new, sent_log c = sent_log c0 ++ new /\ flushed_records new /\ new <> [].
Proof.
  intros C V p cfg v rbuf wbuf rx tx c0 c HC Hn Ho.
  destruct (cn_new_idle C _ _ _ _ _ Hn) as (Hid & _).
  destruct (open_not_ok C p cfg (length wbuf) v c0 (Ok tt) c HC Hid Ho) as (evs & Hlog & Houts & _).
  exists evs. split; [exact Hlog|]. split.
  - clear - Houts. remember true as ok eqn:E. induction Houts as [|s evs Hf|ok s evs l Ho Hl IH]; [constructor|discriminate|].
    subst ok. specialize (IH eq_refl). destruct Ho as [->|(r & w & tr & pl & n & fl & _ & _ & _ & _ & _ & -> & [[-> ->]|[_ E]])];
      [exact IH|cbn [app]; constructor; exact IH|discriminate].
  - destruct (open_ok C p cfg (length wbuf) v c0 tt c HC Hid Ho) as (v' & c1 & h' & _ & Hrun & ->).
    intros ->. rewrite app_nil_r in Hlog. unfold set_opened in Hlog. cbn [cn_wh] in Hlog.
    inversion Hrun as [|s c2 h2 s1 c3 h3 c4 h4 Hstep Hrest]; subst.
    inversion Hstep as [c5 h5 k1 msg c6 Hk Hsend| | | | |]; subst.
    destruct Hsend as (_ & Hl1 & _).
    assert (Hmono : exists x, log_of (cn_wh c1) = log_of (cn_wh c3) ++ x).
    { clear - Hrest. induction Hrest as [|s c h s1 c1 h1 c2 h2 Hstep Hrest IH]; [exists []; now rewrite app_nil_r|].
      destruct IH as [x Hx]. rewrite Hx.
      assert (H : exists y, log_of (cn_wh c1) = log_of (cn_wh c) ++ y); [|destruct H as [y ->]; exists (y ++ x); now rewrite app_assoc].
      inversion Hstep; subst; try (exists []; rewrite app_nil_r; reflexivity);
      match goal with H : sends _ _ _ _ _ _ |- _ => destruct H as (_ & Hl & _); eexists; exact Hl end. }
    destruct Hmono as [x Hx]. rewrite Hx, Hl1 in Hlog. unfold log_of in Hlog. cbn in Hlog.
    apply (f_equal (@length _)) in Hlog. rewrite !app_length in Hlog. cbn [length] in Hlog. lia.
Qed.

(** ** C23 *)

Lemma clean_count C key iv L n l m : clean C key iv L n l m -> (m = n + N.of_nat (length (contents l)))%N.
Proof.
  induction 1 as [n|n l m H IH|n x l m Hl Hn H IH]; [cbn; lia|exact IH|].
  change (length (contents (H_rec n ty_data x (length (rfc_record C key iv n ty_data x 0)) :: l))) with (S (length (contents l))).
  lia.
Qed.

Lemma close_sends C L c0 ops rs c r c' : crypto_ok C -> established C L c0 -> 133 <= L -> no_close ops ->
  run C ops c0 = (rs, c) -> step C OpClose c = (r, c') ->
  transport_succeeds c0 -> (N.of_nat (length ops) + 2 <= u64_max)%N ->
  exists hs m, r = Ok VUnit /\
    sent_log c' = sent_log c0 ++ map (ev C (write_key c0) (write_iv c0)) (hs ++ [notify (cn_opened c) m (ev_full C (write_key c0) (write_iv c0) (notify (cn_opened c) m 0)); H_flush]) /\
    clean C (write_key c0) (write_iv c0) L 0 hs m /\ app_data (contents hs) = accepted rs.
Proof.
  intros HC He HL Hcl Hrun Hst Htx Hmax.
  destruct (established_facts C L c0 HC He) as (_ & H0 & _).
  pose proof (established_sending C L c0 HC HL He) as Hs.
  destruct (run_happy C L HC ops c0 rs c None Hs) as (hs & pend & Hs' & Htx' & Hk & Hlog & Hclean & Hcnt & Hdata & Hnf); try assumption.
  { rewrite H0. lia. }
  destruct (step_close_eq C c r c' Hst) as (r0 & Hcn & Hr).
  destruct (close_spec C L c pend r0 c' HC Hs' Hcn) as (hs2 & Hlog2 & Hcl2 & _).
  destruct Hk as (K1 & K2 & _). rewrite K1, K2 in Hlog2. rewrite H0 in Hclean.
  destruct Hcl2 as [o k Hp Hk Hl Ho|o hs2 m Hio Hntx Hcl2 Hd|o hs2 m k fl Hcl2 Hd Hp1 Hp2 Hk Ho Hx].
  - exfalso. destruct Ho as [[_ Hn]|[Hbig _]]; [apply Hn; apply Htx'|lia].
  - contradiction.
  - assert (Hm : (m <= N.of_nat (length ops) + 1)%N).
    { destruct pend as [pl|].
      - specialize (Hp2 pl eq_refl).
        rewrite (clean_count _ _ _ _ _ _ _ Hcl2), Hp2. cbn [length]. lia.
      - specialize (Hp1 eq_refl). subst hs2. inversion Hcl2. lia. }
    destruct Ho as [(-> & Hkeq & -> & _)|(_ & [[_ Hn]|[_ Hbig]])]; [|contradiction|lia].
    exists (hs ++ hs2), m. destruct Hr as [[_ ->]|(Hn & _)]; [|now destruct (Hn tt)]. split; [reflexivity|].
    unfold write_key, write_iv in *. fold (wst (cn_wh c0)) in *.
    split.
    { unfold sent_log. fold (log_of (cn_wh c')). rewrite Hlog2. unfold log_of at 1 in Hlog. unfold log_of at 1. rewrite Hlog, <- app_assoc, <- !map_app, <- app_assoc.
      rewrite Hkeq. rewrite K1, K2. rewrite (notify_full _ _ _ _ _ k 0). reflexivity. }
    split; [eapply clean_app; [exact Hclean|]; now rewrite <- K1, <- K2|].
    rewrite contents_app, app_data_app, Hd. exact Hdata.
Qed.

(** [close] on a connection with a session, over a transport that does not fail: the peer
    gets all accepted data and then one authenticated close_notify, and nothing else; the
    transport is flushed last. *)
Theorem C23_close_partial : forall C L lim c0 ops rs c r c',
  crypto_ok C -> established C L c0 -> 133 <= L <= 133 + lim -> 2 <= lim -> (N.of_nat lim < 65519)%N ->
  no_close ops -> (N.of_nat (length ops) + 2 <= u64_max)%N -> transport_succeeds c0 ->
  run C ops c0 = (rs, c) -> not_closed rs -> step C OpClose c = (r, c') ->
  r = Ok VUnit /\
  exists new ds, sent_log c' = sent_log c0 ++ new ++ [TxFlush] /\
    peer_read C lim (write_key c0) (write_iv c0) 0 (wire new) = (ds ++ [(ty_alert, [x01; x00])], Pending []) /\
    Forall (fun d => fst d = ty_data) ds /\ concat (map snd ds) = accepted rs.
Proof.
  intros C L lim c0 ops rs c r c' HC He HL H2 Hlim Hcl Hmax Htx Hrun Hn Hst.
  destruct (close_sends C L c0 ops rs c r c' HC He (proj1 HL) Hcl Hrun Hst Htx Hmax) as (hs & m & -> & Hlog & Hclean & Hdata).
  split; [reflexivity|].
  destruct (after_calls C L c0 ops rs c HC He (proj1 HL) Hcl Hrun) as (_ & _ & _ & _ & _ & _ & Hop). rewrite (Hop Hn) in Hlog.
  set (key := write_key c0) in *. set (iv := write_iv c0) in *.
  exists (map (ev C key iv) hs ++ [ev C key iv (H_rec m ty_alert [x01; x00] (length (rfc_record C key iv m ty_alert [x01; x00] 0)))]), (contents hs).
  split; [rewrite Hlog, map_app, <- app_assoc; reflexivity|].
  split; [|split; [eapply clean_types; eauto|now rewrite <- (clean_data _ _ _ _ _ _ _ Hclean)]].
  rewrite wire_app, (clean_wire C key iv L lim 0 hs m _ HC Hclean) by tauto.
  cbn [wire map concat ev ev_bytes]. rewrite firstn_all, app_nil_r.
  rewrite <- (app_nil_r (rfc_record _ _ _ _ _ _ _)).
  rewrite peer_read_record; [|assumption|discriminate|exact H2|cbn; lia].
  now rewrite peer_read_nil.
Qed.

(** After the peer's close_notify the alert goes out in the clear, in a record of type 20
    (change_cipher_spec), which no peer accepts as a closure alert. *)
Theorem C23_after_peer_closed : forall C L c0 ops rs c r c',
  crypto_ok C -> established C L c0 -> 133 <= L ->
  no_close ops -> (N.of_nat (length ops) + 2 <= u64_max)%N -> transport_succeeds c0 ->
  run C ops c0 = (rs, c) -> cn_opened c = false -> step C OpClose c = (r, c') ->
  exists new, sent_log c' = sent_log c0 ++ new ++ [TxWrite [x14; x03; x01; x00; x02; x01; x00] 7; TxFlush] /\
    forall lim, L <= 133 + lim -> (N.of_nat lim < 65519)%N ->
     exists ds, peer_read C lim (write_key c0) (write_iv c0) 0 (wire (new ++ [TxWrite [x14; x03; x01; x00; x02; x01; x00] 7; TxFlush]))
       = (ds, Rejected) /\ Forall (fun d => fst d = ty_data) ds.
Proof.
  intros C L c0 ops rs c r c' HC He HL Hcl Hmax Htx Hrun Hop Hst.
  destruct (close_sends C L c0 ops rs c r c' HC He HL Hcl Hrun Hst Htx Hmax) as (hs & m & -> & Hlog & Hclean & Hdata).
  rewrite Hop in Hlog. exists (map (ev C (write_key c0) (write_iv c0)) hs).
  split; [rewrite Hlog, map_app; reflexivity|]. intros lim H1 H3. exists (contents hs).
  split; [|eapply clean_types; eauto].
  rewrite wire_app, (clean_wire C _ _ L lim 0 hs m _ HC Hclean H1 H3).
  cbn [wire map concat ev_bytes firstn app].
  replace (peer_read C lim (write_key c0) (write_iv c0) m [x14; x03; x01; x00; x02; x01; x00]) with (@nil (byte * bytes), Rejected) by reflexivity.
  cbn [fst snd]. now rewrite app_nil_r.
Qed.

Definition closing_300 : conn :=
  toy_conn [RxData (toy_data 0 ty_alert [x01; x00] 0)].
Lemma closing_300_established : established toy 300 closing_300.
Proof. apply toy_conn_established. Qed.

(** So the property is false "including after the peer closed": read reports the peer's
    close_notify, close returns Ok, and what it sent last is rejected by the peer, which has
    not received a closure alert. *)
Theorem C23_refuted : exists C L c0 ops rs c c', crypto_ok C /\ established C L c0 /\ transport_succeeds c0 /\
  no_close ops /\ 134 <= L <= 133 + rfc_limit /\
  run C ops c0 = (rs, c) /\ step C OpClose c = (Ok VUnit, c') /\
  forall new, sent_log c' = sent_log c0 ++ new ->
    snd (peer_read C rfc_limit (write_key c0) (write_iv c0) 0 (wire new)) = Rejected /\
    ~ In (ty_alert, [x01; x00]) (fst (peer_read C rfc_limit (write_key c0) (write_iv c0) 0 (wire new))).
Proof.
  destruct (run toy [OpRead (zeros 4)] closing_300) as [rs c] eqn:Er.
  destruct (step toy OpClose c) as [r c'] eqn:Es.
  exists toy, 300, closing_300, [OpRead (zeros 4)], rs, c, c'.
  assert (Hop : cn_opened c = false) by (apply (f_equal snd) in Er; cbn [snd] in Er; rewrite <- Er; vm_compute; reflexivity).
  split; [exact toy_ok|]. split; [exact closing_300_established|]. split; [split; constructor|]. split; [reflexivity|].
  split; [unfold rfc_limit; lia|]. split; [exact Er|].
  destruct (close_sends toy 300 closing_300 [OpRead (zeros 4)] rs c r c' toy_ok closing_300_established ltac:(lia) eq_refl Er Es
     ltac:(split; constructor) ltac:(unfold u64_max; cbn; lia)) as (hs & m & -> & Hlog & Hcl & Hd).
  rewrite Es. split; [reflexivity|]. intros new Hnew.
  destruct (C23_after_peer_closed toy 300 closing_300 [OpRead (zeros 4)] rs c (Ok VUnit) c' toy_ok closing_300_established ltac:(lia) eq_refl
     ltac:(unfold u64_max; cbn; lia) ltac:(split; constructor) Er Hop Es) as (new' & Hl & Hp).
  rewrite Hl in Hnew. apply app_inv_head in Hnew. subst new.
  destruct (Hp rfc_limit ltac:(unfold rfc_limit; lia) ltac:(unfold rfc_limit; lia)) as (ds & -> & Hf). cbn [fst snd].
  split; [reflexivity|]. intros Hin. rewrite Forall_forall in Hf. apply Hf in Hin. discriminate.
Qed.

Example C23_example : established toy 300 conn_300 /\ transport_succeeds conn_300 /\
  fst (run toy [OpWrite [x41; x42]; OpClose] conn_300) = [(OpWrite [x41; x42], Ok (VCount 2)); (OpClose, Ok VUnit)].
Proof. split; [exact conn_300_established|]. split; [split; constructor|vm_compute; reflexivity]. Qed.

(** ** C19 *)

(** A record within the limits of RFC 8446 sections 5.1 and 5.2: protected, with header type
    23, version 0x0303, true length and the header as associated data; or in the clear, with a
    given type, version 0x0301 and true length.  [plain] says which types are right for the
    plaintext content [m]. *)
Definition record_within (C : crypto) (limit : nat) (plain : N -> bytes -> Prop) (rec : bytes) : Prop :=
  (exists key iv n ty c, In ty [ty_alert; ty_handshake; ty_data] /\ length c <= limit /\
     rec = rfc_record C key iv n ty c 0) \/
  (exists t m, plain t m /\ length m <= limit /\ rec = uint 1 t ++ uint 2 0x0301 ++ vec 2 m).

(** Types of plaintext records: 22 for the ClientHello.  Alerts ought to have type 21. *)
Definition right_type (t : N) (m : bytes) : Prop := t = 22%N \/ t = 21%N /\ length m = 2.
(** What the code does: alerts have type 20. *)
Definition code_type (t : N) (m : bytes) : Prop := t = 22%N \/ t = 20%N /\ length m = 2.

Definition all_records (P : bytes -> Prop) (l : list tx_event) : Prop :=
  Forall (fun e => match e with TxWrite b k => P b /\ k <= length b | TxFlush => True end) l.

Lemma record_within_weaken C l1 l2 (p1 p2 : N -> bytes -> Prop) rec : l1 <= l2 -> (forall t m, p1 t m -> p2 t m) ->
  record_within C l1 p1 rec -> record_within C l2 p2 rec.
Proof.
  intros Hl Hp [(key & iv & n & ty & c & H1 & H2 & ->)|(t & m & H1 & H2 & ->)]; [left|right].
  - exists key, iv, n, ty, c. split; [exact H1|]. split; [lia|reflexivity].
  - exists t, m. split; [auto|]. split; [lia|reflexivity].
Qed.

Lemma all_records_weaken (P Q : bytes -> Prop) l : (forall b, P b -> Q b) -> all_records P l -> all_records Q l.
Proof. intros H. apply Forall_impl. intros [b k|]; [intros [H1 H2]; auto|auto]. Qed.

Lemma open_records C V (p : provider V) cfg L v c0 o c : crypto_ok C -> idle C L c0 -> cn_open C p cfg v c0 = (o, c) ->
  exists new, sent_log c = sent_log c0 ++ new /\ all_records (record_within C (L - 5) code_type) new.
Proof.
  intros HC Hid Ho. destruct (open_not_ok C p cfg L v c0 o c HC Hid Ho) as (evs & Hlog & Houts & _).
  exists evs. split; [exact Hlog|]. clear Hlog Ho Hid.
  assert (Hone : forall s ok evs, hs_out C p cfg L s ok evs -> all_records (record_within C (L - 5) code_type) evs).
  { intros s ok e [->|(r & w & tr & pl & n & fl & Hm & Hp & Hiv & HL & Hn & -> & Hfl)]; [constructor|].
    constructor; [|destruct Hfl as [[-> _]|[-> _]]; [constructor; [exact I|constructor]|constructor]].
    split; [|exact Hn]. unfold rec_wire in *. destruct (rh_is_encrypted (cr_header r)) eqn:Ee.
    - left. rewrite rfc_record_length in HL by assumption.
      do 5 eexists. split; [|split; [|reflexivity]]; [destruct r; cbn; auto|lia].
    - right. unfold vec in HL. rewrite !app_length, !uint_length in HL.
      do 2 eexists. split; [|split; [|reflexivity]]; [|lia].
      destruct r as [m e|l d e]; [now left|]. right. split; [reflexivity|]. cbn [payload_of] in Hp. now rewrite Hp. }
  induction Houts as [|s evs H|ok s evs l H Hl IH]; [constructor|eapply Hone; eauto|].
  apply Forall_app. split; [eapply Hone; eauto|exact IH].
Qed.

(** After [open]: no more than [L - 133] bytes per record, or an alert. *)
Lemma run_records C L c0 ops rs c : crypto_ok C -> established C L c0 -> 133 <= L -> run C ops c0 = (rs, c) ->
  exists new, sent_log c = sent_log c0 ++ new /\
    all_records (record_within C (Nat.max 2 (L - 133)) (fun t m => t = 20%N /\ length m = 2)) new.
Proof.
  intros HC He HL Hrun. destruct (established_facts C L c0 HC He) as (_ & H0 & _).
  pose proof (established_sending C L c0 HC HL He) as Hs.
  destruct (run_fits C L ops c0 rs c None HC Hs) as (hs & Hlog & Hf); [rewrite H0; unfold u64_max; lia|exact Hrun|].
  exists (map (ev C (write_key c0) (write_iv c0)) hs). split; [exact Hlog|].
  unfold all_records. rewrite Forall_map. eapply Forall_impl; [|exact Hf].
  intros [n ty x k|b k|] H; cbn [ev rec_fits] in *; [| |exact I].
  - destruct H as (Hty & Hn & Hk). split; [|exact Hk]. left. exists (write_key c0), (write_iv c0), n, ty, x.
    destruct Hty as [[-> Hx]|[-> ->]]; (split; [cbn; auto|]; split; [cbn [length]; lia|reflexivity]).
  - destruct H as (-> & Hk). split; [|exact Hk]. right. exists 20%N, [x01; x00].
    split; [auto|]. split; [cbn [length]; lia|reflexivity].
Qed.

(** Every record ever handed to the transport, from the first byte of [open] on, whatever
    the server, the transport and the application do.  With at most 16389 bytes of write buffer
    no record carries more than 2^14 bytes.  Missing for the full property: alerts in the clear
    have the wrong type, and larger buffers break the limit (below). *)
Theorem C19_records_partial : forall C V (p : provider V) cfg v rbuf wbuf rx tx c0 o c1 ops rs c,
  crypto_ok C -> cn_new C rbuf wbuf rx tx = Ok c0 -> cn_open C p cfg v c0 = (o, c1) ->
  length (p_random p) = 32 -> 133 <= length wbuf <= rfc_limit + 5 ->
  (o = Ok tt /\ run C ops c1 = (rs, c) \/ o <> Ok tt /\ c = c1) ->
  exists new, sent_log c = sent_log c0 ++ new /\ all_records (record_within C rfc_limit code_type) new.
Proof.
  intros C V p cfg v rbuf wbuf rx tx c0 o c1 ops rs c HC Hn Ho Hr HL Hcase.
  destruct (cn_new_idle C _ _ _ _ _ Hn) as (Hid & _).
  destruct (open_records C V p cfg (length wbuf) v c0 o c1 HC Hid Ho) as (new1 & Hl1 & Hr1).
  assert (Hr1' : all_records (record_within C rfc_limit code_type) new1).
  { eapply all_records_weaken; [|exact Hr1]. intros b. apply record_within_weaken; [lia|auto]. }
  destruct Hcase as [[-> Hrun]|[_ ->]]; [|eauto].
  assert (He : established C (length wbuf) c1).
  { exists V, p, cfg, v, rbuf, wbuf, rx, tx, c0. auto. }
  destruct (run_records C _ c1 ops rs c HC He (proj1 HL) Hrun) as (new2 & Hl2 & Hr2).
  exists (new1 ++ new2). split; [now rewrite Hl2, Hl1, app_assoc|]. apply Forall_app. split; [exact Hr1'|].
  eapply all_records_weaken; [|exact Hr2]. intros b. apply record_within_weaken; [lia|]. unfold code_type. intros t m H. now right.
Qed.

(** Once open, 16517 bytes of buffer are still within the limit. *)
Theorem C19_open_records_partial : forall C L c0 ops rs c, crypto_ok C -> established C L c0 -> 133 <= L <= rfc_limit + 133 ->
  run C ops c0 = (rs, c) ->
  exists new, sent_log c = sent_log c0 ++ new /\ all_records (record_within C rfc_limit code_type) new.
Proof.
  intros C L c0 ops rs c HC He HL Hrun. destruct (run_records C L c0 ops rs c HC He (proj1 HL) Hrun) as (new & Hl & Hr).
  exists new. split; [exact Hl|]. eapply all_records_weaken; [|exact Hr]. intros b.
  apply record_within_weaken; [unfold rfc_limit in *; lia|]. unfold code_type. intros t m H. now right.
Qed.

(** With any larger buffer - 16640 bytes is what the documentation recommends - one
    sufficiently long [write] sends a record over the limit. *)
Theorem C19_over_limit : forall C L c0 b r c', crypto_ok C -> established C L c0 -> rfc_limit + 133 < L ->
  transport_succeeds c0 -> L - 133 <= length b -> step C (OpWrite b) c0 = (r, c') ->
  r = Ok (VCount (L - 133)) /\
  In (TxWrite (rfc_record C (write_key c0) (write_iv c0) 0 ty_data (firstn (L - 133) b) 0)
     (length (rfc_record C (write_key c0) (write_iv c0) 0 ty_data (firstn (L - 133) b) 0))) (sent_log c') /\
  rfc_limit < length (firstn (L - 133) b).
Proof.
  intros C L c0 b r c' HC He HL Htx Hb Hst. destruct (established_facts C L c0 HC He) as (_ & H0 & Hop & _).
  pose proof (established_sending C L c0 HC ltac:(lia) He) as Hs.
  destruct (write_exact C L c0 b r c' None HC Hs Hop Hst) as (Hlen & Hcase). cbn [content length] in *. rewrite Nat.sub_0_r in *.
  replace (Nat.min (length b) (L - 133)) with (L - 133) in * by lia.
  destruct Hcase as [(Hlt & _)|(_ & Hp & k & fl & Hlog & Hk & Hr)]; [lia|].
  destruct Hr as [(-> & -> & _)|(_ & [[_ Hn]|[_ Hbig]])]; [|contradiction|rewrite H0 in Hbig; unfold u64_max in Hbig; lia].
  split; [reflexivity|]. split; [|rewrite firstn_length; lia].
  unfold sent_log. unfold log_of in Hlog. rewrite Hlog. apply in_or_app. right. left.
  unfold data_record. rewrite H0. reflexivity.
Qed.

(** A connection with the 16640-byte write buffer. *)
Lemma over_limit C V (p : provider V) cfg v rbuf wbuf rx tx : crypto_ok C -> length (p_random p) = 32 ->
  rfc_limit + 133 < length wbuf ->
  match (c <-- cn_new C rbuf wbuf rx tx ;; Ok (cn_open C p cfg v c)) with Ok (Ok tt, c) => transport_succeeds c | _ => False end ->
  exists c0 ops c n x, established C (length wbuf) c0 /\
  c = snd (run C ops c0) /\ (rfc_limit < length x) /\
  In (TxWrite (rfc_record C (write_key c0) (write_iv c0) n ty_data x 0)
     (length (rfc_record C (write_key c0) (write_iv c0) n ty_data x 0))) (sent_log c).
Proof.
  intros HC Hr HL H.
  destruct (cn_new C _ _ _ _) as [c00| | | |] eqn:En; cbn [obind] in H; try contradiction.
  destruct (cn_open _ _ _ _ _) as [o c0] eqn:Eo. destruct o as [[]| | | |]; try contradiction.
  assert (He : established C (length wbuf) c0).
  { exists V, p, cfg, v, rbuf, wbuf, rx, tx, c00. auto. }
  destruct (step C (OpWrite wbuf) c0) as [r c'] eqn:Es.
  destruct (C19_over_limit C _ c0 wbuf r c' HC He HL H ltac:(lia) Es) as (-> & Hin & Hlt).
  exists c0, [OpWrite wbuf], c', 0%N. eexists. split; [exact He|].
  split; [|split; [exact Hlt|exact Hin]].
  rewrite (run_cons' _ _ _ _ _ _ Es). reflexivity.
Qed.

Theorem C19_limit_refuted : exists C L c0 ops c n x, crypto_ok C /\ established C L c0 /\ L = N.to_nat 16640 /\
  c = snd (run C ops c0) /\ (rfc_limit < length x) /\
  In (TxWrite (rfc_record C (write_key c0) (write_iv c0) n ty_data x 0)
     (length (rfc_record C (write_key c0) (write_iv c0) n ty_data x 0))) (sent_log c).
Proof.
  assert (EL : length (zeros (N.to_nat 16640)) = N.to_nat 16640) by apply repeat_length.
  destruct (over_limit toy unit plain_provider small_config tt (zeros 400) (zeros (N.to_nat 16640)) [RxData plain_flight] silent)
    as (c0 & ops & c & n & x & He & Hc & Hlt & Hin).
  - exact toy_ok.
  - reflexivity.
  - rewrite EL. assert (E : rfc_limit = N.to_nat 16384) by exact eq_refl. rewrite E. clear E. lia.
  - vm_compute. split; constructor.
  - rewrite EL in He. exists toy, (N.to_nat 16640), c0, ops, c, n, x. split; [exact toy_ok|]. split; [exact He|].
    split; [exact eq_refl|]. split; [exact Hc|]. split; [exact Hlt|exact Hin].
Qed.

(** A plaintext alert of type 20 does leave the client. *)
Theorem C19_alert_type_refuted : exists C L c0 ops c b k, crypto_ok C /\ established C L c0 /\ 133 <= L <= rfc_limit + 5 /\
  c = snd (run C ops c0) /\ In (TxWrite b k) (sent_log c) /\ ~ record_within C rfc_limit right_type b.
Proof.
  exists toy, 300, closing_300, [OpRead (zeros 4); OpClose]. eexists. exists [x14; x03; x01; x00; x02; x01; x00], 7.
  split; [exact toy_ok|]. split; [exact closing_300_established|]. split; [unfold rfc_limit; lia|]. split; [reflexivity|].
  split.
  - replace (sent_log (snd (run toy [OpRead (zeros 4); OpClose] closing_300)))
      with (sent_log closing_300 ++ [TxWrite [x14; x03; x01; x00; x02; x01; x00] 7; TxFlush]) by (vm_compute; reflexivity).
    apply in_or_app. right. now left.
  - intros [(key & iv & n & ty & c & _ & _ & E)|(t & m & Ht & _ & E)].
    + unfold rfc_record in E. destruct (c_seal _ _ _ _ _) as [ct tag]. unfold rfc_header in E. discriminate E.
    + destruct Ht as [->|[-> _]]; discriminate E.
Qed.

Example C19_example : exists c0, cn_new toy (zeros 400) (zeros 300) [RxData plain_flight] silent = Ok c0 /\
  fst (cn_open toy plain_provider small_config tt c0) = Ok tt /\ length (p_random plain_provider) = 32.
Proof. eexists. split; [reflexivity|]. split; [vm_compute; reflexivity|reflexivity]. Qed.

Example C21_example : established toy 300 conn_300 /\
  fst (run toy [OpWrite [x41]; OpFlush; OpFlush] conn_300) =
    [(OpWrite [x41], Ok (VCount 1)); (OpFlush, Ok VUnit); (OpFlush, Ok VUnit)] /\
  started 167 (fst (run toy [OpWrite [x41]; OpFlush] conn_300)) = None.
Proof. split; [exact conn_300_established|]. split; vm_compute; reflexivity. Qed.

Print Assumptions C19_records_partial.
Print Assumptions C19_open_records_partial.
Print Assumptions C19_limit_refuted.
Print Assumptions C19_alert_type_refuted.
Print Assumptions C20_write.
Print Assumptions C20_only_sending_calls_send.
Print Assumptions C20_room.
Print Assumptions C21_flush_policy.
Print Assumptions C21_empty_flush.
Print Assumptions C21_open_flushes.
Print Assumptions C23_close_partial.
Print Assumptions C23_refuted.
