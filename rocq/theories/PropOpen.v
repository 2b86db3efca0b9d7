(** * C31 and C34: calls end; the alerts that [open] sends *)
From Coq Require Import String List NArith Arith Bool Lia ZArith.
From Coq.Strings Require Import Byte.
From Coq Require Import ZifyBool ZifyNat ZifyN.
From Verif Require Import Base ParseBuffer Buffer Codes Extensions Crypto KeySchedule Config Handshake Record WriteBuffer
  Transport RecordReader ReadBuffer Connection Api BaseProofs Toy ParseProofs SpecWire SpecCodes SpecMessages SpecKeys
  WireProofs SpecRecord SpecRead SpecSend FrameProofs ReadProofs HsProofs ConnProofs RecvProofs ToyRun SpecHandshake ToyServer SpecOpen TermProofs AbortProofs.
Import ListNotations.
Local Open Scope list_scope.

(** ** C31 *)

Lemma new_wf C rbuf wbuf rx tx c0 : cn_new C rbuf wbuf rx tx = Ok c0 -> rd_wf (cn_rd c0) /\ rd_rx (cn_rd c0) = rx.
Proof.
  intros H. destruct (cn_new_idle C rbuf wbuf rx tx c0 H) as (_ & _ & _ & _ & _ & E & _). rewrite E. split; [|reflexivity].
  unfold rd_wf. cbn. lia.
Qed.

(** The loop of [open] ends, whatever the transport delivers, and its outcome is that of
    [open]; it makes at most seven rounds and one for every five bytes or reads that come in. *)
Theorem C31_open : forall V C (p : provider V) cfg v v' rbuf wbuf rx tx c0, provider_returns p ->
  cn_new C rbuf wbuf rx tx = Ok c0 -> told p cfg v v' ->
  exists n o st, handshake_run C p cfg n St_ClientHello (c0, hs_new v') o st /\
    fst (cn_open C p cfg v c0) = o /\ 5 * n <= 35 + rx_size rx.
Proof.
  intros V C p cfg v v' rbuf wbuf rx tx c0 Hp Hn Ht. destruct (new_wf C rbuf wbuf rx tx c0 Hn) as [Hw Hx].
  pose proof (open_runs C p cfg Hp v c0 Hw) as G. destruct (cn_open C p cfg v c0) as [o c]. destruct G as (_ & _ & G). cbv zeta in G.
  assert (E : match p_has_verifier p, cfg_server_name cfg with true, Some n => p_set_hostname p n v | _, _ => (Ok tt, v) end = (Ok tt, v')).
  { unfold told in Ht. destruct (cfg_server_name cfg); destruct (p_has_verifier p); congruence. }
  rewrite E in G. cbn [fst snd] in G. destruct G as (n & st & G1 & G2 & _). rewrite Hx in G2. eauto 8.
Qed.

(** The same for the loop of the reading calls, in every state of an established connection. *)
Theorem C31_read : forall C L c0 ops rs c, crypto_ok C -> established C L c0 -> run C ops c0 = (rs, c) ->
  exists n o st, fill_run C n (cn_rd c, (cn_dec c, cn_opened c)) o st /\ 5 * n <= 5 + rx_size (rd_rx (cn_rd c)).
Proof.
  intros C L c0 ops rs c HC He Hr. destruct (established_recv C L c0 HC He) as (_ & (Hw & _) & _).
  assert (Hw' : rd_wf (cn_rd c)).
  { clear He HC. revert c0 rs c Hw Hr. induction ops as [|o ops IH]; intros c0 rs c Hw Hr; [injection Hr as _ <-; exact Hw|].
    cbn [run] in Hr. pose proof (step_ends C o c0 Hw) as G. destruct (step C o c0) as [r c1]. destruct G as [_ W1].
    assert (D : c1 = c \/ exists rs', run C ops c1 = (rs', c)).
    { destruct o, r; try (apply pair_equal_spec in Hr as [_ Hr]; auto; fail);
        (destruct (run C ops c1) as [rs' c2]; apply pair_equal_spec in Hr as [_ <-]; eauto). }
    destruct D as [<-|[rs' D]]; [exact W1|]. exact (IH _ _ _ W1 D). }
  pose proof (fill_runs C (S (rx_size (rd_rx (cn_rd c)))) (cn_rd c, (cn_dec c, cn_opened c)) Hw' ltac:(unfold left; cbn [fst]; lia)) as G.
  destruct (fill_loop C _ _) as [o st]. destruct G as ((n & G1 & G2) & _). exists n, o, st. split; [exact G1|]. unfold left in G2. cbn [fst] in G2. lia.
Qed.

(** No call on a connection, from its creation on, runs forever: opening, failing, opening
    again, writing, reading, closing, in any order. *)
Theorem C31_every_call : forall V C (l : list (call V)) rbuf wbuf rx tx c0,
  (forall p cfg v, In (COpen p cfg v) l -> provider_returns p) -> cn_new C rbuf wbuf rx tx = Ok c0 ->
  Forall (fun r => r <> Diverge) (life C l c0).
Proof.
  intros V C l rbuf wbuf rx tx c0 Hl Hn. destruct (new_wf C rbuf wbuf rx tx c0 Hn) as [Hw _]. apply life_ends; [exact Hw|].
  apply Forall_forall. intros [p cfg v|o] Hx; [exact (Hl p cfg v Hx)|exact I].
Qed.

(** ** C34 *)

(** The functions of the user do not return the library's own error. *)
Definition own_errors {V} (p : provider V) : Prop :=
  (forall l d, p_signer p <> Err (AbortHandshake l d)) /\ (forall n v l d, fst (p_set_hostname p n v) <> Err (AbortHandshake l d)).

Lemma na_ne {A} (o : outcome tls_error A) : (forall l d, o <> Err (AbortHandshake l d)) -> na o.
Proof. intros H. destruct o as [a|e|x| |]; try exact I. destruct e; try exact I. now destruct (H l d). Qed.

(** When [open] aborts the handshake, the alert is never sent as an alert record and never
    protected: either nothing follows the ClientHello, or a record of type 20
    (change_cipher_spec) in the clear with the two bytes of the alert. *)
Theorem C34_refuted : forall V C (p : provider V) cfg v rbuf wbuf rx tx c0 c l d, crypto_ok C -> own_errors p ->
  cn_new C rbuf wbuf rx tx = Ok c0 -> cn_open C p cfg v c0 = (Err (AbortHandshake l d), c) ->
  exists hello, sent_log c = tx_log tx ++ goes_out (SpecHandshake.hello_record hello) \/
    sent_log c = tx_log tx ++ goes_out (SpecHandshake.hello_record hello) ++
      goes_out ([x14; x03; x01; x00; x02] ++ uint 1 (alert_level_code l) ++ uint 1 (alert_desc_code d)).
Proof.
  intros V C p cfg v rbuf wbuf rx tx c0 c l d HC [H1 H2] Hn Ho.
  apply (open_abort C p cfg rbuf wbuf rx tx c0 v c l d HC); auto; [now apply na_ne|intros; now apply na_ne].
Qed.

(** Both happen.  A protected EncryptedExtensions with a key_share extension: the handshake
    keys are there and the alert illegal_parameter (2, 47) goes out in the clear. *)
Definition bad_ee_flight : bytes := Eval vm_compute in
  plain_handshake srv_hello ++ y_record None full_hellos 0 ty_handshake (hs_message 8 (vec 2 (ext_share 23 [x01]))).
Definition bad_ee_conn : conn := Eval vm_compute in
  match opening plain_provider tt [RxData bad_ee_flight] with Ok (_, c) => c | _ => no_conn end.
Definition aborts_with (w : bytes) (c : conn) : Prop :=
  exists c0, cn_new toy (zeros 400) (zeros 300) [RxData w] silent = Ok c0 /\
    cn_open toy plain_provider small_config tt c0 = (Err (AbortHandshake AL_Fatal AD_IllegalParameter), c).
Lemma aborts_run w c :
  match opening plain_provider tt [RxData w] with Ok r => r | _ => (Diverge, no_conn) end =
    (Err (AbortHandshake AL_Fatal AD_IllegalParameter), c) -> aborts_with w c.
Proof.
  unfold opening, open_with, aborts_with. destruct (cn_new toy (zeros 400) (zeros 300) [RxData w] silent) as [c0|e|x| |]; cbn [obind]; try discriminate.
  intros E. eauto.
Qed.
Theorem C34_refuted_clear : crypto_ok toy /\ own_errors plain_provider /\ aborts_with bad_ee_flight bad_ee_conn /\
  sent_log bad_ee_conn = goes_out (SpecHandshake.hello_record plain_hello) ++ goes_out [x14; x03; x01; x00; x02; x02; x2f].
Proof.
  split; [exact toy_ok|]. split; [split; intros; discriminate|]. split; [apply aborts_run; vm_compute; reflexivity|]. vm_compute. reflexivity.
Qed.

(** A ServerHello with a supported_groups extension: no alert. *)
Definition bad_sh_flight : bytes := Eval vm_compute in
  plain_handshake (hello_with 0x0303 (repeat x09 32) 0x1301 (extension 10 (vec 2 (uint 2 23)))).
Definition bad_sh_conn : conn := Eval vm_compute in
  match opening plain_provider tt [RxData bad_sh_flight] with Ok (_, c) => c | _ => no_conn end.
Theorem C34_refuted_silent : aborts_with bad_sh_flight bad_sh_conn /\
  sent_log bad_sh_conn = goes_out (SpecHandshake.hello_record plain_hello).
Proof. split; [apply aborts_run; vm_compute; reflexivity|]. vm_compute. reflexivity. Qed.

(** ** Concrete cases *)

(** The handshake of ToyServer.v. *)
Example full_run : provider_returns full_provider /\ told full_provider small_config 0 1 /\
  exists n o st, handshake_run toy full_provider small_config n St_ClientHello (full_start, hs_new 1) o st /\ o = Ok tt.
Proof.
  assert (H : provider_returns full_provider) by (split; [|split; [|split]]; intros; discriminate).
  split; [exact H|]. split; [reflexivity|].
  destruct (C31_open _ toy full_provider small_config 0 1 _ _ _ _ _ H full_start_new eq_refl) as (n & o & st & H1 & H2 & _).
  exists n, o, st. split; [exact H1|]. rewrite full_conn_opened in H2. symmetry. exact H2.
Qed.

(** A life: open, read past the end of the stream, open again. *)
Example a_life : Forall (fun r => r <> Diverge)
  (life toy [COpen full_provider small_config 0; COp (OpRead (zeros 4)); COpen full_provider small_config 1; COp OpFlush] full_start).
Proof.
  apply (C31_every_call nat toy _ (zeros 400) (zeros 300) full_rx silent); [|exact full_start_new].
  intros p cfg v H. cbn in H.
  destruct H as [H|[H|[H|[H|[]]]]]; try discriminate; injection H as <- <- <-; (split; [|split; [|split]]; intros; discriminate).
Qed.

Print Assumptions C31_open.
Print Assumptions C31_read.
Print Assumptions C31_every_call.
Print Assumptions C34_refuted.
Print Assumptions C34_refuted_clear.
Print Assumptions C34_refuted_silent.
