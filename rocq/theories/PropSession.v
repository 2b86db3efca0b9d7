(** * C24: no application I/O outside an established session *)
From Coq Require Import String List NArith Arith Bool Lia.
From Coq.Strings Require Import Byte.
From Verif Require Import Base Codes Crypto KeySchedule Config Handshake Record WriteBuffer Transport
  RecordReader ReadBuffer Connection Api SpecRecord SpecSend SpecSession FlagProofs Toy ToyRun.
Import ListNotations.
Local Open Scope list_scope.

Lemma run_open C : forall ops c rs c', run C ops c = (rs, c') -> not_closed rs -> cn_opened c' = cn_opened c.
Proof.
  induction ops as [|o ops IH]; intros c rs c' H Hn; [inversion H; reflexivity|].
  cbn [run] in H. destruct (step C o c) as [r c1] eqn:E.
  assert (H1 : r <> Err ConnectionClosed -> cn_opened c1 = cn_opened c).
  { intros Hr. now destruct (step_flag _ _ _ _ _ E) as [[-> _]|[_ ->]]. }
  destruct (run C ops c1) as [rs1 c2] eqn:Er.
  assert (H2 : rs = (o, r) :: rs1 /\ c' = c2 \/ rs = [(o, r)] /\ c' = c1).
  { destruct o, r; inversion H; auto. }
  destruct H2 as [[-> ->]|[-> ->]].
  - inversion Hn. subst. rewrite (IH _ _ _ Er) by assumption. now apply H1.
  - inversion Hn. subst. now apply H1.
Qed.

Lemma session_flag C c up : session C c up -> cn_opened c = up.
Proof.
  induction 1 as [rbuf wbuf rx tx c H|V p cfg v c up o c' Hs IH H|o c up r c' Hs IH H].
  - unfold cn_new, wb_new in H. destruct (_ <? _); [|discriminate]. cbn in H. now inversion H.
  - destruct (open_flag C p cfg v c o c' H) as [[-> E]|[Hn E]]; [exact E|].
    destruct o as [[]| | | |]; [contradiction| | | |]; now rewrite E.
  - destruct (step_flag C o c r c' H) as [[-> E]|[Hn E]]; [exact E|]. rewrite E, IH.
    destruct r as [|[]| | |]; try reflexivity. now destruct Hn.
Qed.

(** The calls that move application data. *)
Definition moves_data (o : op) : bool :=
  match o with
  | OpWrite _ | OpFillBuf | OpReadBuffered _ _ => true
  | OpRead dst => negb (length dst =? 0)
  | _ => false
  end.

(** Outside a session - before [open] succeeded, after a failed [open], after the peer's
    close_notify - every such call fails with [MissingHandshake] and leaves the whole
    connection (transport, buffers, keys) as it was. *)
Theorem C24_no_io_without_session : forall C c o, session C c false -> moves_data o = true ->
  step C o c = (Err MissingHandshake, c).
Proof.
  intros C c o Hs Ho. apply session_flag in Hs.
  destruct c as [rd dec wh sh op]. cbn [cn_opened] in Hs. subst op.
  destruct o; try discriminate; cbn [step].
  - destruct wh as [wb ks tx pol]. reflexivity.
  - cbn [moves_data] in Ho. unfold rh_read. destruct (length dst =? 0); [discriminate|]. reflexivity.
  - reflexivity.
  - reflexivity.
Qed.

(** The session state is exactly what the results said: in particular a failed [open] does not
    start one. *)
Theorem C24_failed_open_is_not_a_session : forall C V (p : provider V) cfg v rbuf wbuf rx tx c o c' op0,
  cn_new C rbuf wbuf rx tx = Ok c -> cn_open C p cfg v c = (o, c') -> o <> Ok tt -> moves_data op0 = true ->
  step C op0 c' = (Err MissingHandshake, c').
Proof.
  intros C V p cfg v rbuf wbuf rx tx c o c' op0 Hn Ho Hf Hd. apply C24_no_io_without_session; [|exact Hd].
  pose proof (se_open C V p cfg v c false o c' (se_new C _ _ _ _ _ Hn) Ho) as H.
  destruct o as [[]| | | |]; [contradiction| | | |]; exact H.
Qed.

(** A session closed by its peer: the read reports it, later calls fail. *)
Definition closing_conn : conn :=
  toy_conn [RxData (toy_data 0 ty_alert [x01; x00] 0)].

Lemma closing_conn_session : session toy closing_conn true.
Proof.
  refine (se_open toy unit plain_provider small_config tt _ false (Ok tt) _ (se_new toy (zeros 400) (zeros 300)
    (RxData plain_flight :: [RxData (toy_data 0 ty_alert [x01; x00] 0)]) silent _ eq_refl) _).
  pose proof (toy_conn_opened [RxData (toy_data 0 ty_alert [x01; x00] 0)]) as E.
  unfold opened_conn, open_with in E.
  match type of E with (obind ?o _ = _) => destruct o as [c0|e|x| |] eqn:E0 end; try discriminate.
  cbn [obind] in E. assert (E1 : cn_open toy plain_provider small_config tt c0 = (Ok tt, closing_conn)) by (unfold closing_conn; congruence).
  rewrite <- E1. apply f_equal. injection E0 as <-. reflexivity.
Qed.

Example C24_example : exists c,
  step toy (OpRead (zeros 4)) closing_conn = (Err ConnectionClosed, c) /\ session toy c false /\
  moves_data (OpWrite [x41]) = true /\ step toy (OpWrite [x41]) c = (Err MissingHandshake, c).
Proof.
  destruct (step toy (OpRead (zeros 4)) closing_conn) as [r c] eqn:E. exists c.
  assert (Hr : r = Err ConnectionClosed) by (apply (f_equal fst) in E; vm_compute in E; now symmetry).
  pose proof (se_call toy _ _ _ _ _ closing_conn_session E) as Hs. subst r. cbn in Hs.
  split; [reflexivity|]. split; [exact Hs|]. split; [reflexivity|]. now apply C24_no_io_without_session.
Qed.

(** A failed [open]: the server sends garbage. *)
Example C24_failed_example :
  match open_with plain_provider small_config tt 400 300 [RxData [xff; x00; x00; x00; x00]] silent with
  | Ok (Err InvalidRecord, c) => match step toy (OpRead (zeros 4)) c with (Err MissingHandshake, _) => true | _ => false end
  | _ => false
  end = true.
Proof. vm_compute. reflexivity. Qed.

Print Assumptions C24_no_io_without_session.
Print Assumptions C24_failed_open_is_not_a_session.
