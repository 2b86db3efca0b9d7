(** * C58: what the transport did wrong is reported, unchanged, by the call in which it happened *)
From Coq Require Import String List NArith Arith Bool Lia ZArith Permutation.
From Coq.Strings Require Import Byte.
From Verif Require Import Base Crypto KeySchedule Config Transport RecordReader Connection Api Lib SpecFaults FaultProofs
  SpecOpen SpecSession Toy ToyRun PropSession PropRead PropRecv SpecReceiver PropReceiver SpecChunk PropChunk.
Import ListNotations.
Local Open Scope list_scope.

(** Every call of an established (or not yet opened, or failed) connection, in any state whatever: a transport error of kind [k] during the
    call makes the call return [Io k], a dropped future leaves it without a result, the end of the stream makes it return [IoError], and a call
    that returns anything else has met no fault at all.  At most one fault is met per call. *)
Theorem C58_calls : forall C o c, reports_truly (fst (step C o c)) c (snd (step C o c)).
Proof. intros C o c. exact (r_step C o c). Qed.

(** The same for [open], if the user's verifier and signer do not return transport errors of their own. *)
Theorem C58_open : forall V C (p : provider V) cfg v c, provider_no_io p ->
  reports_truly (fst (cn_open C p cfg v c)) c (snd (cn_open C p cfg v c)).
Proof. intros V C p cfg v c Hp. exact (r_open C p cfg Hp v c). Qed.

(** The premise is needed: a verifier can make one up. *)
Definition lying_provider : provider unit :=
  mk_provider (zeros 32) (zeros 32) true (fun _ v => (Err (Io 7%N), v)) (fun _ _ v => (Ok tt, v)) (fun _ v => (Ok tt, v)) None (Err InvalidHandshake) 0.
Definition named_config : tls_config := mk_config (Some [x61]) None None [] [] None.
Theorem C58_open_refuted : exists V C (p : provider V) cfg v c, ~ reports_truly (fst (cn_open C p cfg v c)) c (snd (cn_open C p cfg v c)).
Proof.
  exists unit, toy, lying_provider, named_config, tt, (cut_new []). vm_compute. intros [H|[H|H]]; discriminate.
Qed.

(** ** Over a whole session no error is lost, invented, altered or reported twice *)

Definition answer_told (a : answer) : list fault := match a with A_open r => told r | A_op r => told r end.

Lemma met_errors f a b : met f a b -> Permutation (errors a) (errors b ++ (if is_error f then [f] else [])).
Proof.
  unfold errors. intros [H|[H|H]]; rewrite H; cbn [a_rx a_wr a_fl]; rewrite !filter_app; cbn [filter]; destruct (is_error f); rewrite ?app_nil_r; try reflexivity.
  - cbn [app]. apply Permutation_cons_append.
  - rewrite <- !app_assoc. apply Permutation_app_head. cbn [app]. rewrite Permutation_cons_append. now rewrite <- !app_assoc.
  - rewrite <- !app_assoc. do 2 apply Permutation_app_head. apply Permutation_cons_append.
Qed.
Lemma truthful_errors {A} (r : outcome tls_error A) a b rx : truthful r a b rx -> Permutation (errors a) (told r ++ errors b).
Proof.
  destruct r as [x|e|x| |]; cbn [truthful told]; try (intros ->; reflexivity).
  - destruct e; try (intros ->; reflexivity).
    + intros [H|[-> _]]; [|reflexivity]. apply met_errors in H. cbn in H. now rewrite app_nil_r in H.
    + intros H. apply met_errors in H. cbn [is_error] in H. now rewrite Permutation_app_comm in H.
  - intros H. apply met_errors in H. cbn [is_error] in H. now rewrite Permutation_app_comm in H.
Qed.

Theorem C58_session : forall V C (l : list (call V)) c,
  (forall p cfg v, In (COpen p cfg v) l -> provider_no_io p) ->
  let (rs, c') := session C l c in Permutation (errors (faults c)) (flat_map answer_told rs ++ errors (faults c')).
Proof.
  intros V C l. induction l as [|k l IH]; intros c Hl; cbn [session]; [reflexivity|].
  assert (Hl' : forall p cfg v, In (COpen p cfg v) l -> provider_no_io p) by (intros; eapply Hl; right; eassumption).
  destruct k as [p cfg v|o].
  - pose proof (C58_open V C p cfg v c (Hl p cfg v (or_introl eq_refl))) as H. apply truthful_errors in H.
    destruct (cn_open C p cfg v c) as [r c1]. cbn [fst snd] in H. specialize (IH c1 Hl'). destruct (session C l c1) as [rs c2].
    destruct r; cbn [flat_map answer_told app]; try (rewrite app_nil_r; exact H); rewrite H, IH, app_assoc; reflexivity.
  - pose proof (C58_calls C o c) as H. apply truthful_errors in H.
    destruct (step C o c) as [r c1]. cbn [fst snd] in H. specialize (IH c1 Hl'). destruct (session C l c1) as [rs c2].
    destruct o, r; cbn [flat_map answer_told app]; try (rewrite app_nil_r; exact H); rewrite H, IH, app_assoc; reflexivity.
Qed.

(** ** What a caller sees through [embedded_io]: the kind of the transport's error, and [Other] for everything else *)

Theorem C58_kind : forall C o c e, fst (step C o c) = Err e ->
  met (F_Err (err_kind e)) (faults c) (faults (snd (step C o c))) \/ err_kind e = kind_other.
Proof.
  intros C o c e E. pose proof (C58_calls C o c) as H. unfold reports_truly in H. rewrite E in H.
  destruct e; try (right; reflexivity). left. exact H.
Qed.
Theorem C58_kind_exact : forall C o c k, met (F_Err k) (faults c) (faults (snd (step C o c))) ->
  exists e, fst (step C o c) = Err e /\ err_kind e = k.
Proof.
  intros C o c k Hm. pose proof (C58_calls C o c) as H. unfold reports_truly in H.
  assert (N : forall a b : ahead, met (F_Err k) a b -> a <> b).
  { intros a b Hab ->. destruct Hab as [E|[E|E]]; apply (f_equal (fun x => length (a_rx x ++ a_wr x ++ a_fl x))) in E;
      cbn [a_rx a_wr a_fl] in E; repeat rewrite app_length in E; cbn [length] in E; lia. }
  assert (U : forall f g a b, met f a b -> met g a b -> f = g).
  { intros f g a b Ha Hb. destruct Ha as [Ea|[Ea|Ea]], Hb as [Eb|[Eb|Eb]]; rewrite Ea in Eb;
      pose proof (f_equal a_rx Eb) as E1; pose proof (f_equal a_wr Eb) as E2; pose proof (f_equal a_fl Eb) as E3; cbn [a_rx a_wr a_fl] in E1, E2, E3;
      first [now injection E1|now injection E2|now injection E3|exfalso];
      match goal with H : _ :: _ = _ |- _ => apply (f_equal (@length _)) in H; cbn [length] in H; lia end. }
  destruct (fst (step C o c)) as [x|e|x| |] eqn:E; cbn [truthful] in H; try (exfalso; now apply (N _ _ Hm)).
  - exists e. split; [reflexivity|]. destruct e; try (exfalso; now apply (N _ _ Hm)).
    + destruct H as [H|[H _]]; [discriminate (U _ _ _ _ Hm H)|exfalso; now apply (N _ _ Hm)].
    + specialize (U _ _ _ _ Hm H). injection U as ->. reflexivity.
  - discriminate (U _ _ _ _ Hm H).
Qed.

(** ** A concrete session: a read fails with kind 5 in the middle of a record, a future is dropped, the stream ends, a flush fails with kind 9
    and a write with kind 3; each is reported by the call it happened in *)

Definition bad_rx : list rx_event := [RxErr 5%N; RxData [x17; x03]; RxCancel; RxData []].
Definition bad_tx : txst := mk_txst [WrOk; WrErr 2 3%N] [FlErr 9%N; FlOk] [].
Definition bad_conn : conn :=
  let c := toy_conn bad_rx in
  mk_conn (cn_rd c) (cn_dec c) (mk_whalf (wh_wb (cn_wh c)) (wh_ks (cn_wh c)) bad_tx (wh_policy (cn_wh c))) (cn_shared c) (cn_opened c).
Definition bad_calls : list (call unit) := map COp [OpFillBuf; OpFillBuf; OpFillBuf; OpFillBuf; OpWrite [x41]; OpFlush; OpWrite [x42]; OpFlush; OpFlush].

Example C58_case :
  fst (session toy bad_calls bad_conn) =
    [A_op (Err (Io 5%N)); A_op Cancelled; A_op (Err IoError); A_op (Err IoError); A_op (Ok (VCount 1)); A_op (Err (Io 9%N));
     A_op (Ok (VCount 1)); A_op (Err (Io 3%N)); A_op (Ok VUnit)] /\
  errors (faults bad_conn) = [F_Err 5%N; F_Cancel; F_Err 3%N; F_Err 9%N] /\
  errors (faults (snd (session toy bad_calls bad_conn))) = [] /\ provider_no_io plain_provider.
Proof. split; [vm_compute; reflexivity|]. split; [reflexivity|]. split; [vm_compute; reflexivity|]. repeat split; intros; exact I. Qed.

Print Assumptions C58_calls.
Print Assumptions C58_open.
Print Assumptions C58_session.
Print Assumptions C58_kind.
Print Assumptions C58_kind_exact.
