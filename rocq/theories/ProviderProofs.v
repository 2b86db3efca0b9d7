(** * Two lenient providers that are the same client behave the same *)
From Coq Require Import String List NArith Arith Bool Lia.
From Coq.Strings Require Import Byte.
From Verif Require Import Base ParseBuffer Buffer Codes Extensions Crypto KeySchedule Config Handshake Record WriteBuffer
  Transport RecordReader ReadBuffer Connection Api Providers SpecProviders HsProofs TermProofs.
Import ListNotations.
Local Open Scope list_scope.

(** ** Runs in step *)
Section Step.
Context {S T : Type} (R : S -> T -> Prop).

Definition alike {A} (m : M S tls_error A) (n : M T tls_error A) : Prop :=
  forall s t, R s t -> fst (m s) = fst (n t) /\ R (snd (m s)) (snd (n t)).

Lemma alike_ret {A} (a : A) : alike (ret a) (ret a).
Proof. intros s t H. now split. Qed.
Lemma alike_lift {A} (o : outcome tls_error A) : alike (lift o) (lift o).
Proof. intros s t H. now split. Qed.
Lemma alike_fail {A} e : alike (@fail S tls_error A e) (fail e).
Proof. intros s t H. now split. Qed.
Lemma alike_panic {A} e : alike (@panic S tls_error A e) (panic e).
Proof. intros s t H. now split. Qed.

Lemma alike_bind {A B} (m : M S tls_error A) n (f : A -> M S tls_error B) g : alike m n -> (forall a, alike (f a) (g a)) ->
  alike (bind m f) (bind n g).
Proof.
  intros Hm Hf s t H. destruct (Hm s t H) as [H1 H2]. unfold bind.
  destruct (m s) as [o s1], (n t) as [o' t1]. cbn [fst snd] in *. subst o'.
  destruct o as [a|e|x| |]; [exact (Hf a s1 t1 H2)|now split..].
Qed.

Lemma alike_get {B} (f : S -> M S tls_error B) g : (forall s t, R s t -> alike (f s) (g t)) -> alike (bind get f) (bind get g).
Proof. intros H s t Hr. exact (H s t Hr s t Hr). Qed.

Lemma alike_attempt {A} (m : M S tls_error A) n : alike m n -> alike (attempt m) (attempt n).
Proof.
  intros Hm s t H. destruct (Hm s t H) as [H1 H2]. unfold attempt.
  destruct (m s) as [o s1], (n t) as [o' t1]. cbn [fst snd] in *. subst o'. destruct o; now split.
Qed.
Lemma alike_modify f g : (forall s t, R s t -> R (f s) (g t)) -> alike (modify f) (modify g).
Proof. intros H s t Hr. split; [reflexivity|]. now apply H. Qed.
End Step.

(** ** Decryption *)
Section Dec.
Context {S T : Type} (C : crypto) (R : S -> T -> Prop).
Context (cb : rks -> server_record -> M S tls_error unit) (cb' : rks -> server_record -> M T tls_error unit).
Hypothesis Hcb : forall k r, alike R (cb k r) (cb' k r).

Definition Rp (s : rdst * S) (t : rdst * T) : Prop := fst s = fst t /\ R (snd s) (snd t).

Lemma alike_call r : alike Rp (call_cb cb r) (call_cb cb' r).
Proof.
  intros [a s] [a' t] [Ha H]. cbn [fst snd] in *. subst a'. unfold call_cb. cbn [fst snd].
  destruct (Hcb (rd_ks a) r s t H) as [H1 H2]. destruct (cb (rd_ks a) r s), (cb' (rd_ks a) r t). cbn [fst snd] in *. repeat split; auto.
Qed.
Lemma alike_on_fst {A} (m : M rdst tls_error A) : alike Rp (on_fst m) (on_fst m).
Proof.
  intros [a s] [a' t] [Ha H]. cbn [fst snd] in *. subst a'. unfold on_fst. cbn [fst snd]. destruct (m a). repeat split; auto.
Qed.

Lemma alike_loop : forall fuel p, alike Rp (handshake_loop C cb fuel p) (handshake_loop C cb' fuel p).
Proof.
  induction fuel as [|fuel IH]; intros p; cbn [handshake_loop]; apply alike_bind; try apply alike_lift; intros r;
    (destruct (r =? 0); [apply alike_ret|]); [apply alike_lift|].
  apply alike_get. intros [a s] [a' t] [Ha H]. cbn [fst snd] in *. subst a'.
  destruct (read_server_handshake C (r_transcript (rd_ks a)) p) as [o p'].
  apply alike_bind; [apply alike_lift|]. intros ht. apply alike_bind; [apply alike_on_fst|]. intros _.
  apply alike_bind; [apply alike_call|]. intros _. apply IH.
Qed.

Lemma alike_decrypt rec : alike Rp (decrypt_record C cb rec) (decrypt_record C cb' rec).
Proof.
  destruct rec; cbn [decrypt_record]; try apply alike_call.
  apply alike_get. intros [a s] [a' t] [Ha H]. cbn [fst snd] in *. subst a'.
  apply alike_bind; [apply alike_lift|]. intros nonce. destruct (decrypt_in_place _ _ _ _ _) as [o data1].
  apply alike_bind; [apply alike_lift|]. intros _. apply alike_bind; [apply alike_on_fst|]. intros _.
  destruct (strip_content_type data1) as [o2 data2]. apply alike_bind; [apply alike_lift|]. intros ty.
  apply alike_bind; [apply alike_lift|]. intros inner.
  apply alike_bind; [|intros _; apply alike_on_fst].
  destruct ty; try apply alike_fail; [|apply alike_loop|apply alike_call].
  apply alike_bind; [apply alike_lift|]. intros ld. apply alike_call.
Qed.
End Dec.

(** ** The handshake *)
Section Hs.
Context {V W : Type} (C : crypto) (p : provider V) (q : provider W) (cfg : tls_config).
Hypothesis Hp : lenient p.
Hypothesis Hq : lenient q.
Hypothesis Hpq : same_client p q.

Definition Rh (h : @hs_data V) (h' : @hs_data W) : Prop :=
  hs_traffic h = hs_traffic h' /\ hs_secret h = hs_secret h' /\ hs_certreq h = hs_certreq h'.
Definition Rc (s : conn * @hs_data V) (t : conn * @hs_data W) : Prop := fst s = fst t /\ Rh (snd s) (snd t).
Definition Rs (s : hs_state * @hs_data V) (t : hs_state * @hs_data W) : Prop := fst s = fst t /\ Rh (snd s) (snd t).

Lemma alike_v (m : M V tls_error unit) (n : M W tls_error unit) : (forall v, fst (m v) = Ok tt) -> (forall w, fst (n w) = Ok tt) ->
  alike Rs (on_v m) (on_v n).
Proof.
  intros Hm Hn [s h] [s' h'] [E H]. cbn [fst snd] in *. subst s'. unfold on_v. cbn [fst snd].
  specialize (Hm (hs_v h)). specialize (Hn (hs_v h')). destruct (m (hs_v h)), (n (hs_v h')). cbn [fst snd] in *. subst. split; [reflexivity|]. split; [reflexivity|exact H].
Qed.
Lemma alike_v_l (m : M V tls_error unit) : (forall v, fst (m v) = Ok tt) -> alike Rs (on_v m) (ret tt).
Proof.
  intros Hm [s h] [s' h'] [E H]. cbn [fst snd] in *. subst s'. unfold on_v. cbn [fst snd].
  specialize (Hm (hs_v h)). destruct (m (hs_v h)). cbn [fst snd] in *. subst. split; [reflexivity|]. split; [reflexivity|exact H].
Qed.
Lemma alike_v_r (n : M W tls_error unit) : (forall v, fst (n v) = Ok tt) -> alike Rs (ret tt) (on_v n).
Proof.
  intros Hm [s h] [s' h'] [E H]. cbn [fst snd] in *. subst s'. unfold on_v. cbn [fst snd].
  specialize (Hm (hs_v h')). destruct (n (hs_v h')). cbn [fst snd] in *. subst. split; [reflexivity|]. split; [reflexivity|exact H].
Qed.

Lemma alike_set_certreq r : alike Rs (mod_sv (hs_set_certreq r)) (mod_sv (hs_set_certreq r)).
Proof. apply alike_modify. intros [s h] [s' h'] [E (H1 & H2 & H3)]. repeat split; assumption. Qed.
Lemma alike_set_traffic r : alike Rs (mod_sv (hs_set_traffic r)) (mod_sv (hs_set_traffic r)).
Proof. apply alike_modify. intros [s h] [s' h'] [E (H1 & H2 & H3)]. repeat split; assumption. Qed.
Lemma alike_set_sv s : alike Rs (set_sv s) (set_sv s).
Proof. apply alike_modify. intros [s0 h] [s' h'] [E H]. split; [reflexivity|exact H]. Qed.

Lemma alike_cb k rec : alike Rs (server_verify_cb C p k rec) (server_verify_cb C q k rec).
Proof.
  destruct rec as [sh| |l d|h off d]; cbn [server_verify_cb]; try apply alike_fail; [|apply alike_ret].
  destruct sh; try apply alike_fail; try apply alike_ret.
  - destruct (p_has_verifier p) eqn:E1, (p_has_verifier q) eqn:E2.
    + apply alike_v; [apply Hp, E1|apply Hq, E2].
    + apply alike_v_l. apply Hp, E1.
    + apply alike_v_r. apply Hq, E2.
    + apply alike_ret.
  - apply alike_bind; [apply alike_lift|]. intros r. apply alike_set_certreq.
  - destruct (p_has_verifier p) eqn:E1, (p_has_verifier q) eqn:E2.
    + apply alike_v; [apply Hp, E1|apply Hq, E2].
    + apply alike_v_l. apply Hp, E1.
    + apply alike_v_r. apply Hq, E2.
    + apply alike_ret.
  - apply alike_bind; [apply alike_lift|]. intros ok. destruct (negb ok); [apply alike_fail|].
    apply alike_get. intros [s h] [s' h'] [E (H1 & H2 & H3)]. cbn [fst snd] in *. rewrite H3.
    destruct (hs_certreq h'); [apply alike_set_sv|]. apply alike_bind; [apply alike_set_traffic|]. intros _. apply alike_set_sv.
Qed.

Lemma alike_conn {A} (m : M conn tls_error A) : alike Rc (on_conn m) (on_conn m).
Proof. intros [c h] [c' h'] [E H]. cbn [fst snd] in *. subst c'. unfold on_conn. cbn [fst snd]. destruct (m c). split; [reflexivity|]. split; [reflexivity|exact H]. Qed.

Lemma alike_mod_traffic r : alike Rc (mod_hs (hs_set_traffic r)) (mod_hs (hs_set_traffic r)).
Proof. apply alike_modify. intros [s h] [s' h'] [E (H1 & H2 & H3)]. repeat split; assumption. Qed.
Lemma alike_mod_secret r : alike Rc (mod_hs (hs_set_secret r)) (mod_hs (hs_set_secret r)).
Proof. apply alike_modify. intros [s h] [s' h'] [E (H1 & H2 & H3)]. repeat split; assumption. Qed.

Lemma alike_verify rec : alike Rc (process_server_verify C p rec) (process_server_verify C q rec).
Proof.
  intros [c h] [c' h'] [E H]. cbn [fst snd] in *. subst c'. unfold process_server_verify.
  destruct (alike_decrypt C Rs _ _ alike_cb rec (cn_rd c, (St_ServerVerify, h)) (cn_rd c, (St_ServerVerify, h'))) as [H1 H2].
  { split; [reflexivity|]. split; [reflexivity|exact H]. }
  destruct (decrypt_record C (server_verify_cb C p) rec _) as [o [r [s h1]]].
  destruct (decrypt_record C (server_verify_cb C q) rec _) as [o' [r' [s' h1']]]. cbn [fst snd] in *. destruct H2 as [H2 [H3 H4]]. cbn [fst snd] in *. subst.
  split; [reflexivity|]. split; [reflexivity|exact H4].
Qed.

Lemma alike_server_hello rec : alike Rc (process_server_hello C rec) (process_server_hello C rec).
Proof.
  destruct rec as [sh| |l d|h off d]; cbn [process_server_hello]; try apply alike_fail.
  destruct sh; try apply alike_fail.
  apply alike_get. intros [c h] [c' h'] [E (H1 & H2 & H3)]. cbn [fst snd] in *. subst c'. rewrite H2.
  apply alike_bind; [apply alike_mod_secret|]. intros _. apply alike_bind; [apply alike_lift|]. intros secret.
  apply alike_bind; [apply alike_lift|]. intros shared. apply alike_bind; [apply alike_conn|]. intros _. apply alike_ret.
Qed.

Lemma alike_error m n : alike Rc m n -> alike Rc (handle_processing_error C m) (handle_processing_error C n).
Proof.
  intros H. unfold handle_processing_error. apply alike_bind; [now apply alike_attempt|]. intros [s|e]; [apply alike_ret|].
  destruct e; try apply alike_fail. apply alike_bind; [apply alike_conn|]. intros tx. apply alike_bind; [apply alike_conn|]. intros _. apply alike_fail.
Qed.

(** The state that needs the key is reached only with a certificate. *)
Definition fine (s : hs_state) : Prop := s = St_ClientCertVerify -> p_client_cert p <> None.

Lemma alike_process s : fine s -> alike Rc (process C p cfg s) (process C q cfg s).
Proof.
  destruct Hpq as (E1 & E2 & E3 & E4). intros Hs. destruct s; cbn [process].
  - unfold do_client_hello. rewrite E1, E2. apply alike_bind; [|intros tx; apply alike_bind; [apply alike_conn|intros _; apply alike_ret]].
    apply alike_bind; [apply alike_conn|]. intros _. apply alike_bind; [apply alike_conn|]. intros tx.
    apply alike_bind; [apply alike_mod_secret|]. intros _. apply alike_ret.
  - apply alike_bind; [apply alike_conn|]. intros rec. apply alike_error, alike_server_hello.
  - apply alike_bind; [apply alike_conn|]. intros rec. apply alike_error, alike_verify.
  - apply alike_bind; [|intros nt; apply alike_bind; [apply alike_conn|intros _; apply alike_ret]].
    unfold do_client_cert. apply alike_get. intros [c h] [c' h'] [E (H1 & H2 & H3)]. cbn [fst snd] in *. subst c'. rewrite H3, E3.
    apply alike_bind; [apply alike_mod_traffic|]. intros _. apply alike_bind; [apply alike_lift|]. intros ctx.
    destruct (p_client_cert q); (apply alike_bind; [apply alike_conn|intros tx; apply alike_ret]).
  - destruct (E4 (Hs eq_refl)) as [E5 E6].
    apply alike_bind; [|intros rt; apply alike_bind; [apply alike_conn|intros _; destruct (fst rt); [apply alike_ret|apply alike_fail]]].
    unfold do_client_cert_verify. rewrite E5, E6. apply alike_get. intros [c h] [c' h'] [E _]. cbn [fst snd] in *. subst c'.
    destruct (p_signer q) as [[sign scheme]|e|y| |]; try apply alike_lift; try apply alike_panic.
    + apply alike_bind; [apply alike_lift|]. intros msg. destruct (sign msg); [|apply alike_panic]. destruct (_ <? _); [apply alike_panic|]. apply alike_bind; [apply alike_conn|]. intros tx. apply alike_ret.
    + apply alike_bind; [apply alike_conn|]. intros tx. apply alike_ret.
  - apply alike_bind.
    + unfold do_client_finished. apply alike_get. intros [c h] [c' h'] [E _]. cbn [fst snd] in *. subst c'.
      apply alike_bind; [apply alike_lift|]. intros v. apply alike_conn.
    + intros tx. apply alike_bind; [apply alike_conn|]. intros _. unfold client_finished_finalize.
      apply alike_get. intros [c h] [c' h'] [E (H1 & _)]. cbn [fst snd] in *. subst c'. rewrite H1.
      apply alike_bind; [apply alike_mod_traffic|]. intros _. apply alike_bind; [apply alike_lift|]. intros tr.
      apply alike_bind; [apply alike_conn|]. intros _. apply alike_bind; [apply alike_conn|]. intros _. apply alike_ret.
  - apply alike_ret.
Qed.

Lemma verify_fine rec st s' st' : process_server_verify C p rec st = (Ok s', st') -> after_verify s'.
Proof.
  destruct st as [c h]. unfold process_server_verify. intros H.
  pose proof (holds_decrypt C (server_verify_cb C p) (fun x => after_verify (fst x)) (server_verify_after C p) rec (cn_rd c, (St_ServerVerify, h)) I) as Ha.
  destruct (decrypt_record C (server_verify_cb C p) rec (cn_rd c, (St_ServerVerify, h))) as [o [r [s h']]]. cbn [fst snd] in Ha.
  apply pair_equal_spec in H as [H _]. destruct o; try discriminate. cbn in H. injection H as <-. exact Ha.
Qed.

Lemma process_fine s st s' st' : process C p cfg s st = (Ok s', st') -> fine s'.
Proof.
  intros H ->. destruct s; cbn [process] in H; try (apply bind_ok in H as (rec & st1 & H1 & H)).
  - apply bind_ok in H as (u & st2 & _ & H). discriminate.
  - apply hpe_ok in H. destruct rec as [sh| |l d|hd off d]; cbn [process_server_hello] in H; try discriminate.
    destruct sh; try discriminate. repeat (apply bind_ok in H as (? & ? & _ & H)). discriminate.
  - apply hpe_ok in H. apply verify_fine in H. destruct H.
  - apply bind_ok in H as (u & st2 & _ & H). unfold ret in H. apply pair_equal_spec in H as [H _]. injection H as H.
    unfold do_client_cert in H1. repeat (apply bind_ok in H1 as (? & ? & _ & H1)).
    destruct (p_client_cert p); [discriminate|]. apply bind_ok in H1 as (? & ? & _ & H1).
    apply pair_equal_spec in H1 as [H1 _]. injection H1 as <-. discriminate.
  - apply bind_ok in H as (u & st2 & _ & H). apply pair_equal_spec in H1 as [H1 _] || idtac.
    unfold do_client_cert_verify in H1. apply bind_ok in H1 as (? & ? & _ & H1). destruct (p_signer p) as [[sign scheme]|e|y| |]; try discriminate.
    + apply bind_ok in H1 as (? & ? & _ & H1). destruct (sign _); [|discriminate]. destruct (_ <? _); [discriminate|]. apply bind_ok in H1 as (? & ? & _ & H1).
      apply pair_equal_spec in H1 as [H1 _]. injection H1 as <-. discriminate.
    + apply bind_ok in H1 as (? & ? & _ & H1). apply pair_equal_spec in H1 as [H1 _]. injection H1 as <-. discriminate.
  - apply bind_ok in H as (u & st2 & _ & H). unfold client_finished_finalize in H. repeat (apply bind_ok in H as (? & ? & _ & H)). discriminate.
  - discriminate.
Qed.

Lemma alike_open_loop : forall fuel s, fine s -> alike Rc (open_loop C p cfg fuel s) (open_loop C q cfg fuel s).
Proof.
  induction fuel as [|fuel IH]; intros s Hs; (destruct (state_cases s) as [->|Hd]; [apply alike_ret|]).
  { destruct s; try apply alike_lift. }
  intros st st' H. rewrite !open_loop_round by assumption. unfold bind.
  pose proof (process_fine s st) as Hf. destruct (alike_process s Hs st st' H) as [H1 H2].
  destruct (process C p cfg s st) as [o t], (process C q cfg s st') as [o' t']. cbn [fst snd] in *. subst o'.
  destruct o as [s1|e|y| |]; try (now split). exact (IH s1 (Hf s1 t eq_refl) t t' H2).
Qed.

Theorem open_alike v w c : cn_open C p cfg v c = cn_open C q cfg w c.
Proof.
  unfold cn_open.
  assert (E1 : exists v', (match p_has_verifier p, cfg_server_name cfg with true, Some n => p_set_hostname p n v | _, _ => (Ok tt, v) end) = (Ok tt, v')).
  { destruct (p_has_verifier p) eqn:E, (cfg_server_name cfg) as [n|]; eauto. destruct (Hp E) as [H _]. specialize (H n v).
    destruct (p_set_hostname p n v) as [o v']. cbn [fst] in H. subst o. eauto. }
  assert (E2 : exists w', (match p_has_verifier q, cfg_server_name cfg with true, Some n => p_set_hostname q n w | _, _ => (Ok tt, w) end) = (Ok tt, w')).
  { destruct (p_has_verifier q) eqn:E, (cfg_server_name cfg) as [n|]; eauto. destruct (Hq E) as [H _]. specialize (H n w).
    destruct (p_set_hostname q n w) as [o v']. cbn [fst] in H. subst o. eauto. }
  destruct E1 as [v' ->], E2 as [w' ->]. unfold bind at 1, lift at 1. unfold bind at 1, lift at 1.
  destruct (alike_open_loop (8 + rx_size (rd_rx (cn_rd c))) St_ClientHello) with (s := (c, hs_new v')) (t := (c, hs_new w')) as [H1 H2].
  { intros [=]. }
  { repeat split. }
  destruct (open_loop C p cfg _ _ _) as [o [c1 h1]], (open_loop C q cfg _ _ _) as [o' [c2 h2]]. cbn [fst snd] in *. destruct H2 as [H2 _]. cbn [fst] in H2.
  now subst.
Qed.
End Hs.
