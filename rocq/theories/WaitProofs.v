(** * No call asks the transport for more than it needs *)
From Coq Require Import String List NArith Arith Bool Lia ZArith.
From Coq.Strings Require Import Byte.
From Coq Require Import ZifyBool ZifyNat ZifyN.
From Verif Require Import Base ParseBuffer Buffer Codes Extensions Crypto KeySchedule Config Handshake Record WriteBuffer
  Transport RecordReader ReadBuffer Connection Api BaseProofs ParseProofs SpecWire SpecKeys SpecRead SpecOpen FrameProofs SpecChunk SpecWait.
Import ListNotations.
Local Open Scope list_scope.

(** ** Programs *)

(** The end of the transport was met (or, which does not happen, the loops did not end). *)
Definition stop {A} (o : outcome tls_error A) : Prop := o = Err IoError \/ o = Diverge.

(** Unless the end was met, the same result on related states, and related states again. *)
Definition par {S A} (R : S -> S -> Prop) (m1 m2 : M S tls_error A) : Prop :=
  forall s1 s2, R s1 s2 -> stop (fst (m1 s1)) \/ (fst (m1 s1) = fst (m2 s2) /\ R (snd (m1 s1)) (snd (m2 s2))).

Lemma par_bind {S A B} (R : S -> S -> Prop) (m1 m2 : M S tls_error A) (f1 f2 : A -> M S tls_error B) :
  par R m1 m2 -> (forall a, par R (f1 a) (f2 a)) -> par R (bind m1 f1) (bind m2 f2).
Proof.
  intros H1 H2 s1 s2 H. unfold bind. destruct (H1 s1 s2 H) as [E|[E1 R1]].
  - left. destruct (m1 s1) as [o1 t1]. cbn [fst] in E. destruct E as [-> | ->]; [now left|now right].
  - destruct (m1 s1) as [o1 t1]. destruct (m2 s2) as [o2 t2]. cbn [fst snd] in E1, R1. subst o2.
    destruct o1 as [a|e|x| |]; [exact (H2 a t1 t2 R1)|..]; right; split; auto.
Qed.
Lemma par_get {S A} (R : S -> S -> Prop) (f1 f2 : S -> M S tls_error A) : (forall x1 x2, R x1 x2 -> par R (f1 x1) (f2 x2)) -> par R (bind get f1) (bind get f2).
Proof. intros H s1 s2 Hs. exact (H s1 s2 Hs s1 s2 Hs). Qed.
Lemma par_lift {S A} (R : S -> S -> Prop) (o : outcome tls_error A) : par R (lift o) (lift o).
Proof. intros s1 s2 H. right. now split. Qed.
Lemma par_ret {S A} (R : S -> S -> Prop) (a : A) : par R (ret a) (ret a).
Proof. intros s1 s2 H. right. now split. Qed.
Lemma par_fail {S A} (R : S -> S -> Prop) e : par R (fail e : M S tls_error A) (fail e).
Proof. intros s1 s2 H. right. now split. Qed.
Lemma par_panic {S A} (R : S -> S -> Prop) x : par R (panic x : M S tls_error A) (panic x).
Proof. intros s1 s2 H. right. now split. Qed.

Section More.
Context (more : list rx_event).

(** ** The reader *)

Definition mrx (a b : list rx_event) : Prop := b = a ++ more.

Lemma par_some n : par mrx (rx_read_some n) (rx_read_some n).
Proof.
  intros a b ->. unfold rx_read_some, bind, map_err, rx_read, fail, ret. destruct a as [|[d|k|] a]; cbn [app omap_err].
  - left. left. reflexivity.
  - destruct (length (firstn n d) =? 0); [left; left; reflexivity|]. right. split; [reflexivity|]. cbn [snd]. unfold mrx. now destruct (skipn n d).
  - right. now split.
  - right. now split.
Qed.
Lemma par_header : forall fuel acc, par mrx (header_loop fuel acc) (header_loop fuel acc).
Proof.
  induction fuel as [|fuel IH]; intros acc; cbn [header_loop]; (destruct (_ =? HEADER_LEN); [apply par_ret|]); [apply par_lift|].
  apply par_bind; [apply par_some|intros got; apply IH].
Qed.

Definition grown (s1 s2 : rdst) : Prop := s2 = mk_rdst (rd_buf s1) (rd_decoded s1) (rd_pending s1) (rd_rx s1 ++ more) (rd_ks s1).

Lemma par_rx {A} (m : M (list rx_event) tls_error A) : par mrx m m -> par grown (on_rx m) (on_rx m).
Proof.
  intros H s1 s2 ->. unfold on_rx. cbn [rd_rx rd_buf rd_decoded rd_pending rd_ks]. destruct (H (rd_rx s1) (rd_rx s1 ++ more) eq_refl) as [E|[E R]].
  - left. now destruct (m (rd_rx s1)).
  - right. destruct (m (rd_rx s1)) as [o1 a]. destruct (m (rd_rx s1 ++ more)) as [o2 b]. cbn [fst snd] in *. split; [exact E|]. unfold grown. cbn. now rewrite R.
Qed.

(** Changes that do not concern the bytes to come. *)
Lemma par_put s1 s2 : grown s1 s2 -> par grown (put s1) (put s2).
Proof. intros H a b _. right. split; [reflexivity|exact H]. Qed.

Lemma par_ensure n : par grown (ensure_contiguous n) (ensure_contiguous n).
Proof.
  unfold ensure_contiguous. apply par_get. intros a b ->. cbn [rd_rx rd_buf rd_decoded rd_pending rd_ks].
  destruct (_ <? _); [|apply par_ret]. destruct (_ <? _); [apply par_fail|]. apply par_bind; [apply par_lift|intros w]. now apply par_put.
Qed.
Lemma par_advance_loop : forall fuel amount remain, par grown (advance_loop fuel amount remain) (advance_loop fuel amount remain).
Proof.
  induction fuel as [|fuel IH]; intros amount remain; cbn [advance_loop]; apply par_get; intros a b ->; cbn [rd_rx rd_buf rd_decoded rd_pending rd_ks];
    (destruct (_ <=? _); [apply par_ret|]); [apply par_lift|].
  apply par_bind; [apply par_lift|intros tail]. apply par_bind; [apply par_lift|intros dst]. apply par_bind; [apply par_rx, par_some|intros got].
  apply par_bind; [apply par_lift|intros remain']. apply par_get. intros c d ->. cbn [rd_rx rd_buf rd_decoded rd_pending rd_ks].
  apply par_bind; [apply par_lift|intros x]. apply par_bind; [now apply par_put|intros _; apply IH].
Qed.
Lemma par_modify f : (forall a b, grown a b -> grown (f a) (f b)) -> par grown (modify f) (modify f).
Proof. intros H a b R. right. split; [reflexivity|]. now apply H. Qed.
Lemma par_consume C h : par grown (consume_record C h) (consume_record C h).
Proof.
  unfold consume_record. apply par_bind; [apply par_lift|intros n]. apply par_get. intros a b ->. cbn [rd_rx rd_buf rd_decoded rd_pending rd_ks].
  apply par_bind; [apply par_lift|intros tail]. apply par_bind; [apply par_lift|intros data]. apply par_bind; [apply par_lift|intros p].
  apply par_bind; [now apply par_put|intros _]. apply par_bind; [apply par_lift|intros rt]. apply par_bind; [|intros _; apply par_ret].
  apply par_modify. now intros c d ->.
Qed.
Lemma par_rd_read C : par grown (rd_read C) (rd_read C).
Proof.
  unfold rd_read. apply par_bind; [apply par_rx|intros h].
  - unfold next_record_header. apply par_bind; [apply par_header|intros h; apply par_lift].
  - apply par_bind; [apply par_lift|intros n]. apply par_bind; [|intros _; apply par_consume].
    unfold advance. apply par_bind; [apply par_ensure|intros _; apply par_advance_loop].
Qed.
Lemma par_transcript tr : par grown (set_transcript tr) (set_transcript tr).
Proof. apply par_modify. now intros a b ->. Qed.
Lemma par_increment : par grown rd_increment rd_increment.
Proof. unfold rd_increment. apply par_get. intros a b ->. cbn [rd_rx rd_buf rd_decoded rd_pending rd_ks]. apply par_bind; [apply par_lift|intros k]. now apply par_put. Qed.
Lemma par_write_back off b : par grown (s <- get ;; b <- lift (set_rng (rd_buf s) off b) ;; put (mk_rdst b (rd_decoded s) (rd_pending s) (rd_rx s) (rd_ks s)))
  (s <- get ;; b <- lift (set_rng (rd_buf s) off b) ;; put (mk_rdst b (rd_decoded s) (rd_pending s) (rd_rx s) (rd_ks s))).
Proof. apply par_get. intros x y ->. cbn [rd_rx rd_buf rd_decoded rd_pending rd_ks]. apply par_bind; [apply par_lift|intros k]. now apply par_put. Qed.

Definition gf {S} (a b : rdst * S) : Prop := grown (fst a) (fst b) /\ snd a = snd b.

Lemma grown_ks s1 s2 : grown s1 s2 -> rd_ks s2 = rd_ks s1. Proof. now intros ->. Qed.
Lemma grown_buf s1 s2 : grown s1 s2 -> rd_buf s2 = rd_buf s1. Proof. now intros ->. Qed.

Lemma par_fst {S A} (m : M rdst tls_error A) : par grown m m -> par gf (on_fst m : M (rdst * S) tls_error A) (on_fst m).
Proof.
  intros H [r1 s1] [r2 s2] [Hr Hs]. cbn [fst snd] in Hr, Hs. subst s2. unfold on_fst. cbn [fst snd]. destruct (H r1 r2 Hr) as [E|[E R]].
  - left. now destruct (m r1).
  - right. destruct (m r1), (m r2). cbn [fst snd] in *. split; [exact E|]. split; [exact R|reflexivity].
Qed.

Section Decrypt.
Context {S : Type} (C : crypto) (cb : rks -> server_record -> M S tls_error unit).

Lemma par_cb r : par gf (call_cb cb r) (call_cb cb r).
Proof.
  intros [r1 s1] [r2 s2] [Hr Hs]. cbn [fst snd] in Hr, Hs. subst s2. unfold call_cb. cbn [fst snd]. rewrite (grown_ks r1 r2 Hr).
  destruct (cb (rd_ks r1) r s1). cbn [fst snd]. right. split; [reflexivity|]. split; [exact Hr|reflexivity].
Qed.
Lemma par_loop : forall fuel q, par gf (handshake_loop C cb fuel q) (handshake_loop C cb fuel q).
Proof.
  induction fuel as [|fuel IH]; intros q; cbn [handshake_loop]; (apply par_bind; [apply par_lift|intros n]); destruct (n =? 0); try apply par_ret; try apply par_lift.
  apply par_get. intros x1 x2 [Hx _]. rewrite (grown_ks _ _ Hx). destruct (read_server_handshake C (r_transcript (rd_ks (fst x1))) q) as [o q'].
  apply par_bind; [apply par_lift|intros ht]. apply par_bind; [apply par_fst, par_transcript|intros []]. apply par_bind; [apply par_cb|intros []]. apply IH.
Qed.
Lemma par_decrypt rec : par gf (decrypt_record C cb rec) (decrypt_record C cb rec).
Proof.
  destruct rec as [h| |l d|h off data]; cbn [decrypt_record]; try apply par_cb.
  apply par_get. intros x1 x2 [Hx _]. rewrite (grown_ks _ _ Hx). apply par_bind; [apply par_lift|intros nonce].
  destruct (decrypt_in_place _ _ _ _ _) as [o data1]. apply par_bind; [apply par_lift|intros []]. apply par_bind; [apply par_fst, par_write_back|intros []].
  destruct (strip_content_type data1) as [o2 data2]. apply par_bind; [apply par_lift|intros t]. apply par_bind; [apply par_lift|intros inner].
  apply par_bind; [|intros []; apply par_fst, par_increment].
  destruct t; try apply par_fail.
  - apply par_bind; [apply par_lift|intros ?; apply par_cb].
  - apply par_loop.
  - apply par_cb.
Qed.
End Decrypt.

(** ** The connection *)

Definition gc (a b : conn) : Prop := b = later more a.

Lemma gc_fields a b : gc a b -> cn_dec b = cn_dec a /\ cn_wh b = cn_wh a /\ cn_shared b = cn_shared a /\ cn_opened b = cn_opened a.
Proof. intros ->. repeat split. Qed.
Lemma gc_rd a b : gc a b -> grown (cn_rd a) (cn_rd b).
Proof. now intros ->. Qed.
Lemma gc_intro r1 r2 d w k op : grown r1 r2 -> gc (mk_conn r1 d w k op) (mk_conn r2 d w k op).
Proof. now intros ->. Qed.

Lemma par_wh {A} (m : M whalf tls_error A) : par gc (on_wh m) (on_wh m).
Proof. intros a b ->. right. unfold on_wh, later, with_rx. cbn [cn_rd cn_dec cn_wh cn_shared cn_opened]. destruct (m (cn_wh a)). now split. Qed.
Lemma par_rd {A} (m : M rdst tls_error A) : par grown m m -> par gc (on_rd m) (on_rd m).
Proof.
  intros Hm a b H. destruct (gc_fields a b H) as (E1 & E2 & E3 & E4). unfold on_rd. destruct (Hm _ _ (gc_rd a b H)) as [E|[E R]]; [left; now destruct (m (cn_rd a))|right].
  destruct (m (cn_rd a)) as [o1 t1]. destruct (m (cn_rd b)) as [o2 t2]. cbn [fst snd] in *. subst o2. rewrite E1, E2, E3, E4. split; [reflexivity|]. apply gc_intro, R.
Qed.
Lemma par_ks f : par gc (on_ks f) (on_ks f).
Proof. intros a b ->. right. unfold on_ks. change (cn_keysched (later more a)) with (cn_keysched a). destruct (f (cn_keysched a)); now split. Qed.
Lemma par_write_record C r : par gc (cn_write_record C r) (cn_write_record C r).
Proof.
  unfold cn_write_record. apply par_get. intros a b H. destruct (gc_fields a b H) as (E1 & E2 & E3 & E4). rewrite E2, (grown_ks _ _ (gc_rd a b H)).
  apply par_bind; [apply par_wh|intros st]. apply par_bind; [apply par_rd, par_transcript|intros []]. apply par_ret.
Qed.

(** ** [open] *)

Section Open.
Context {V : Type} (C : crypto) (p : provider V) (cfg : tls_config).
Definition gh (a b : conn * @hs_data V) : Prop := gc (fst a) (fst b) /\ snd a = snd b.

Lemma par_conn {A} (m : M conn tls_error A) : par gc m m -> par gh (on_conn m) (on_conn m).
Proof.
  intros Hm [c1 h1] [c2 h2] [Hc Hh]. cbn [fst snd] in Hc, Hh. subst h2. unfold on_conn. cbn [fst snd]. destruct (Hm _ _ Hc) as [E|[E R]]; [left; now destruct (m c1)|right].
  destruct (m c1), (m c2). cbn [fst snd] in *. split; [exact E|]. split; [exact R|reflexivity].
Qed.
Lemma par_mod f : par gh (mod_hs f) (mod_hs f).
Proof. intros [c1 h1] [c2 h2] [Hc Hh]. cbn [fst snd] in Hc, Hh. subst h2. right. split; [reflexivity|]. split; [exact Hc|reflexivity]. Qed.
Lemma par_respond tx : par gh (on_conn (on_wh (respond tx))) (on_conn (on_wh (respond tx))).
Proof. apply par_conn, par_wh. Qed.
Lemma par_write r : par gh (on_conn (cn_write_record C r)) (on_conn (cn_write_record C r)).
Proof. apply par_conn, par_write_record. Qed.
Lemma par_read : par gh (on_conn (on_rd (rd_read C))) (on_conn (on_rd (rd_read C))).
Proof. apply par_conn, par_rd, par_rd_read. Qed.

Lemma par_hpe (m : M (conn * @hs_data V) tls_error hs_state) : par gh m m -> par gh (handle_processing_error C m) (handle_processing_error C m).
Proof.
  intros H s1 s2 Hs.
  set (k := fun r : hs_state + tls_error => match r with
     | inl s => ret s
     | inr (AbortHandshake l d) => tx <- on_conn (cn_write_record C (CR_Alert l d false)) ;; on_conn (on_wh (respond tx)) ;;; fail (AbortHandshake l d)
     | inr e => fail e end : M (conn * @hs_data V) tls_error hs_state).
  assert (U : forall s, handle_processing_error C m s = match m s with (Ok a, t) => (Ok a, t) | (Err e, t) => k (inr e) t | (Panic x, t) => (Panic x, t) | (Diverge, t) => (Diverge, t) | (Cancelled, t) => (Cancelled, t) end).
  { intros s. unfold handle_processing_error, bind at 1, attempt. now destruct (m s) as [[a|e|x| |] t]. }
  rewrite !U. destruct (H s1 s2 Hs) as [E|[E R]].
  - left. destruct (m s1) as [o t]. cbn [fst] in E. destruct E as [-> | ->]; [now left|now right].
  - destruct (m s1) as [o1 t1]. destruct (m s2) as [o2 t2]. cbn [fst snd] in E, R. subst o2.
    destruct o1 as [s|e|x| |]; try (right; split; [reflexivity|exact R]).
    assert (K : par gh (k (inr e)) (k (inr e))); [|exact (K t1 t2 R)].
    unfold k. destruct e; try apply par_fail. apply par_bind; [apply par_write|intros tx]. apply par_bind; [apply par_respond|intros []]. apply par_fail.
Qed.
Lemma par_server_hello rec : par gh (process_server_hello C rec) (process_server_hello C rec).
Proof.
  destruct rec as [[e| | |ce|ctx|v|f]| |l d|hd off data]; cbn [process_server_hello]; try apply par_fail.
  apply par_get. intros x1 x2 [_ Hx]. rewrite Hx. apply par_bind; [apply par_mod|intros []]. apply par_bind; [apply par_lift|intros secret].
  apply par_bind; [apply par_lift|intros shared]. apply par_bind; [apply par_conn, par_ks|intros []]. apply par_ret.
Qed.
Lemma par_server_verify rec : par gh (process_server_verify C p rec) (process_server_verify C p rec).
Proof.
  intros [c1 h1] [c2 h2] [Hc Hh]. cbn [fst snd] in Hc, Hh. subst h2. destruct (gc_fields c1 c2 Hc) as (E1 & E2 & E3 & E4). unfold process_server_verify.
  destruct (par_decrypt C (server_verify_cb C p) rec (cn_rd c1, (St_ServerVerify, h1)) (cn_rd c2, (St_ServerVerify, h1))) as [E|[E [R S]]].
  { split; [exact (gc_rd _ _ Hc)|reflexivity]. }
  { left. destruct (decrypt_record C (server_verify_cb C p) rec (cn_rd c1, (St_ServerVerify, h1))) as [o1 [r1 [s1 k1]]]. cbn [fst] in E |- *. destruct E as [-> | ->]; [now left|now right]. }
  right. destruct (decrypt_record C (server_verify_cb C p) rec (cn_rd c1, (St_ServerVerify, h1))) as [o1 [r1 [s1 k1]]].
  destruct (decrypt_record C (server_verify_cb C p) rec (cn_rd c2, (St_ServerVerify, h1))) as [o2 [r2 [s2 k2]]]. cbn [fst snd] in *. apply pair_equal_spec in S as [-> ->]. subst o2.
  rewrite E1, E2, E3, E4. split; [reflexivity|]. split; [apply gc_intro, R|reflexivity].
Qed.

Lemma gh_transcript x1 x2 : gh x1 x2 -> rd_ks (cn_rd (fst x2)) = rd_ks (cn_rd (fst x1)) /\ cn_keysched (fst x2) = cn_keysched (fst x1) /\ snd x1 = snd x2.
Proof.
  intros [H1 H2]. destruct (gc_fields _ _ H1) as (E1 & E2 & E3 & E4). pose proof (grown_ks _ _ (gc_rd _ _ H1)) as Ek. split; [exact Ek|]. split; [|exact H2].
  unfold cn_keysched. now rewrite E2, E3, Ek.
Qed.

Lemma par_process s : par gh (process C p cfg s) (process C p cfg s).
Proof.
  destruct s; cbn [process].
  - apply par_bind; [|intros tx; apply par_bind; [apply par_respond|intros []; apply par_ret]].
    unfold do_client_hello. apply par_bind; [apply par_conn, par_ks|intros []]. apply par_bind; [apply par_write|intros tx]. apply par_bind; [apply par_mod|intros []]. apply par_ret.
  - apply par_bind; [apply par_read|intros rec]. apply par_hpe, par_server_hello.
  - apply par_bind; [apply par_read|intros rec]. apply par_hpe, par_server_verify.
  - apply par_bind; [|intros nt; apply par_bind; [apply par_respond|intros []; apply par_ret]].
    unfold do_client_cert. apply par_get. intros x1 x2 Hx. destruct (gh_transcript x1 x2 Hx) as (E1 & E2 & E3). rewrite E1, E3.
    apply par_bind; [apply par_mod|intros []]. apply par_bind; [apply par_lift|intros ctx]. destruct (p_client_cert p); (apply par_bind; [apply par_write|intros ?; apply par_ret]).
  - apply par_bind; [|intros rt; apply par_bind; [apply par_respond|intros []; destruct (fst rt); [apply par_ret|apply par_fail]]].
    unfold do_client_cert_verify. apply par_get. intros x1 x2 Hx. destruct (gh_transcript x1 x2 Hx) as (E1 & E2 & E3). rewrite E1.
    destruct (p_signer p) as [[sign scheme]|e|x| |]; [|apply par_bind; [apply par_write|intros ?; apply par_ret]|apply par_panic|apply par_lift|apply par_lift].
    apply par_bind; [apply par_lift|intros msg]. destruct (sign msg); [|apply par_panic]. destruct (_ <? _); [apply par_panic|]. apply par_bind; [apply par_write|intros ?; apply par_ret].
  - apply par_bind; [|intros tx; apply par_bind; [apply par_respond|intros []]].
    + unfold do_client_finished. apply par_get. intros x1 x2 Hx. destruct (gh_transcript x1 x2 Hx) as (E1 & E2 & E3). rewrite E2.
      apply par_bind; [apply par_lift|intros v]. apply par_write.
    + unfold client_finished_finalize. apply par_get. intros x1 x2 Hx. destruct (gh_transcript x1 x2 Hx) as (E1 & E2 & E3). rewrite E3.
      apply par_bind; [apply par_mod|intros []]. apply par_bind; [apply par_lift|intros tr]. apply par_bind; [apply par_conn, par_rd, par_transcript|intros []].
      apply par_bind; [apply par_conn, par_ks|intros []]. apply par_ret.
  - apply par_ret.
Qed.

(** With more to come the loop has more fuel. *)
Lemma par_open_loop : forall f1 f2 s, f1 <= f2 -> par gh (open_loop C p cfg f1 s) (open_loop C p cfg f2 s).
Proof.
  induction f1 as [|f1 IH]; intros f2 s Hf.
  - destruct s; try (intros a b _; left; now right). destruct f2; apply par_ret.
  - destruct f2 as [|f2]; [lia|]. destruct s; cbn [open_loop]; try apply par_ret; (apply par_bind; [apply par_process|intros s'; apply IH; lia]).
Qed.

Lemma size_app a b : rx_size (a ++ b) = rx_size a + rx_size b.
Proof. unfold rx_size. rewrite map_app. apply list_sum_app. Qed.

Lemma par_open v : par gc (cn_open C p cfg v) (cn_open C p cfg v).
Proof.
  intros c1 c2 Hc. unfold cn_open.
  destruct (match p_has_verifier p, cfg_server_name cfg with true, Some n => p_set_hostname p n v | _, _ => (Ok tt, v) end) as [o0 v'] eqn:E0.
  assert (K : par gh (lift o0 ;;; open_loop C p cfg (8 + rx_size (rd_rx (cn_rd c1))) St_ClientHello) (lift o0 ;;; open_loop C p cfg (8 + rx_size (rd_rx (cn_rd c2))) St_ClientHello)).
  { apply par_bind; [apply par_lift|intros []]. apply par_open_loop. rewrite (gc_rd _ _ Hc). cbn [rd_rx]. rewrite size_app. lia. }
  specialize (K (c1, hs_new v') (c2, hs_new v') (conj Hc eq_refl)).
  destruct ((lift o0 ;;; open_loop C p cfg (8 + rx_size (rd_rx (cn_rd c1))) St_ClientHello) (c1, hs_new v')) as [o1 [d1 h1]].
  destruct ((lift o0 ;;; open_loop C p cfg (8 + rx_size (rd_rx (cn_rd c2))) St_ClientHello) (c2, hs_new v')) as [o2 [d2 h2]]. cbn [fst snd] in K.
  destruct K as [[-> | ->]|[<- [R _]]]; [left; now left|left; now right|]. right. cbn [fst] in R. destruct (gc_fields _ _ R) as (E1 & E2 & E3 & E4).
  destruct o1 as [[]|e|x| |]; cbn [fst snd]; (split; [reflexivity|]); try exact R. rewrite E1, E2, E3. apply gc_intro, (gc_rd _ _ R).
Qed.
End Open.

(** ** The other calls *)

Notation gr := (@gf (dec_info * bool)).

Lemma par_rad C : par gr (read_application_data C) (read_application_data C).
Proof.
  unfold read_application_data. apply par_bind; [apply par_fst, par_rd_read|intros rec].
  apply par_get. intros x1 x2 [Hx _]. rewrite (grown_buf _ _ Hx). apply par_decrypt.
Qed.

Lemma par_fill_loop C : forall f1 f2, f1 <= f2 -> par gr (fill_loop C f1) (fill_loop C f2).
Proof.
  induction f1 as [|f1 IH]; intros f2 Hf.
  - destruct f2 as [|f2]; cbn [fill_loop]; apply par_get; intros x1 x2 [_ Hx]; rewrite <- Hx; (apply par_bind; [apply par_lift|intros e]); destruct (negb e); try apply par_ret;
      intros a b _; left; now right.
  - destruct f2 as [|f2]; [lia|]. cbn [fill_loop]. apply par_get. intros x1 x2 [_ Hx]. rewrite <- Hx. apply par_bind; [apply par_lift|intros e]. destruct (negb e); [apply par_ret|].
    apply par_bind; [apply par_rad|intros _; apply IH; lia].
Qed.

Lemma par_buffered C : par gr (rh_read_buffered C) (rh_read_buffered C).
Proof.
  unfold rh_read_buffered. apply par_get. intros [r1 [d op]] [r2 s2] [Hr Hs]. cbn [fst snd] in Hr, Hs. subst s2. cbn [fst]. destruct op; [|apply par_fail].
  apply par_bind; [apply par_fill_loop; rewrite Hr; cbn [rd_rx]; rewrite size_app; lia|intros _].
  apply par_get. intros x1 x2 [Hx Hy]. rewrite <- Hy, (grown_buf _ _ Hx). apply par_lift.
Qed.

Lemma par_set_dec d : par gr (rh_set_dec d) (rh_set_dec d).
Proof. intros [r1 [d1 o1]] [r2 s2] [Hr Hs]. cbn [fst snd] in Hr, Hs. subst s2. right. split; [reflexivity|]. split; [exact Hr|reflexivity]. Qed.
Lemma par_drop r : par gr (rh_drop r) (rh_drop r).
Proof. unfold rh_drop. apply par_get. intros x1 x2 [_ Hx]. rewrite Hx. apply par_set_dec. Qed.

Lemma par_rh {A} (m : M rhalf tls_error A) : par gr m m -> par gc (on_rh m) (on_rh m).
Proof.
  intros Hm a b H. destruct (gc_fields a b H) as (E1 & E2 & E3 & E4). unfold on_rh. rewrite E1, E2, E3, E4.
  destruct (Hm (cn_rd a, (cn_dec a, cn_opened a)) (cn_rd b, (cn_dec a, cn_opened a))) as [E|[E [R S]]]; [split; [exact (gc_rd _ _ H)|reflexivity]| |].
  - left. now destruct (m (cn_rd a, (cn_dec a, cn_opened a))) as [o1 [r1 [d1 p1]]].
  - right. destruct (m (cn_rd a, (cn_dec a, cn_opened a))) as [o1 [r1 [d1 p1]]]. destruct (m (cn_rd b, (cn_dec a, cn_opened a))) as [o2 [r2 [d2 p2]]]. cbn [fst snd] in *.
    apply pair_equal_spec in S as [-> ->]. split; [exact E|]. apply gc_intro, R.
Qed.

Lemma par_step C o : par gc (step C o) (step C o).
Proof.
  destruct o as [b| |pol|dst| |n|ops fin|]; cbn [step]; (apply par_bind; [|intros ?; apply par_ret]).
  - unfold cn_write. apply par_get. intros a c H. destruct (gc_fields a c H) as (E1 & E2 & E3 & E4). rewrite E4. apply par_wh.
  - apply par_wh.
  - apply par_wh.
  - apply par_rh. unfold rh_read. destruct (_ =? _); [apply par_ret|]. apply par_bind; [apply par_buffered|intros r]. apply par_bind; [apply par_lift|intros bnr].
    apply par_bind; [apply par_drop|intros []]. apply par_ret.
  - apply par_rh. unfold rh_fill_buf. apply par_bind; [apply par_buffered|intros r]. apply par_bind; [apply par_lift|intros sr]. apply par_bind; [apply par_drop|intros []]. apply par_ret.
  - apply par_rh. unfold rh_consume. apply par_get. intros x1 x2 [Hx Hy]. rewrite Hy, (grown_buf _ _ Hx). apply par_bind; [apply par_lift|intros r].
    apply par_bind; [apply par_lift|intros sr]. apply par_drop.
  - apply par_rh. unfold rh_with_buffer. apply par_bind; [apply par_buffered|intros r]. apply par_bind; [apply par_lift|intros q]. apply par_bind; [|intros []; apply par_ret].
    destruct fin; [apply par_drop|]. apply par_get. intros x1 x2 [_ Hy]. rewrite Hy. apply par_set_dec.
  - unfold cn_close. apply par_bind; [apply par_wh|intros []]. apply par_get. intros a c H. destruct (gc_fields a c H) as (E1 & E2 & E3 & E4). rewrite E4.
    apply par_bind; [apply par_write_record|intros s]. apply par_bind; [apply par_wh|intros []]. apply par_bind; [apply par_wh|intros []]. apply par_wh.
Qed.
End More.
