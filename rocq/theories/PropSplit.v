(** * Split connections (C36) *)
From Coq Require Import List NArith Arith Bool Lia.
From Coq.Strings Require Import Byte.
From Verif Require Import Base Crypto WriteBuffer Transport RecordReader ReadBuffer Connection Api Split SpecSplit
  SpecRead SplitProofs Toy ToyRun PropRead.
Import ListNotations.

(** For every schedule, what the two threads got is what the connection gives when the calls are
    made one after the other, in some order that keeps the order of each thread; that order
    only grows at its end as the schedule goes on, so a call that ended before another began
    comes before it. *)
Theorem C36_order : forall C c rs ws xs ys,
  let m1 := schedule C xs (split c rs ws) in
  let m2 := schedule C ys m1 in
  exists h1 c1 h2 c2,
    (merge (r_results (m_reader m1)) (w_results (m_writer m1)) h1 /\ one_by_one C c h1 c1 /\
     t_local (m_reader m1) = (cn_rd c1, cn_dec c1) /\ t_local (m_writer m1) = cn_wh c1 /\ m_flag m1 = cn_opened c1) /\
    (merge (r_results (m_reader m2)) (w_results (m_writer m2)) (h1 ++ h2) /\ one_by_one C c (h1 ++ h2) c2 /\
     t_local (m_reader m2) = (cn_rd c2, cn_dec c2) /\ t_local (m_writer m2) = cn_wh c2 /\ m_flag m2 = cn_opened c2).
Proof.
  intros C c rs ws xs ys m1 m2. destruct (split_inv C c rs ws) as (R0 & W0 & E0).
  destruct (moves C (cn_shared c) xs (split c rs ws) R0 W0) as (R1 & W1 & hr & hw & h & L1 & L2 & M1 & O1).
  fold m1 in R1, W1, L1, L2, O1. rewrite E0 in O1. cbn [split m_reader m_writer t_log app] in L1, L2.
  destruct (moves C (cn_shared c) ys m1 R1 W1) as (R2 & W2 & hr' & hw' & h' & L1' & L2' & M2 & O2).
  fold m2 in R2, W2, L1', L2', O2.
  exists h, (idle (cn_shared c) m1), h', (idle (cn_shared c) m2). unfold r_results, w_results. rewrite L1', L2', L1, L2, !map_app.
  cbn [idle cn_rd cn_dec cn_wh cn_opened]. repeat split; try apply surjective_pairing; try assumption.
  - now apply merge_app.
  - eapply obo_app; eassumption.
Qed.

(** The threads make the calls they were given, in order; a thread stops early only with a panic. *)
Theorem C36_calls : forall C c rs ws xs,
  let m := schedule C xs (split c rs ws) in
  (exists rest, rs = map fst (t_log (m_reader m)) ++ rest /\
    (t_now (m_reader m) = None -> t_calls (m_reader m) = [] ->
     rest = [] \/ exists q v, In (q, v) (t_log (m_reader m)) /\ ((exists x, v = Panic x) \/ v = Diverge))) /\
  (exists rest, ws = map fst (t_log (m_writer m)) ++ rest /\
    (t_now (m_writer m) = None -> t_calls (m_writer m) = [] ->
     rest = [] \/ exists q v, In (q, v) (t_log (m_writer m)) /\ ((exists x, v = Panic x) \/ v = Diverge))).
Proof.
  intros C c rs ws xs m. destruct (schedule_calls C rs ws xs (split c rs ws)) as [H1 H2]; [left; reflexivity|left; reflexivity|].
  fold m in H1, H2. unfold of_calls, todo, stopped in H1, H2. split.
  - destruct H1 as [E|(H & _ & rest & E)]; [|exists rest; auto]. eexists. split; [exact E|]. intros -> ->. auto.
  - destruct H2 as [E|(H & _ & rest & E)]; [|exists rest; auto]. eexists. split; [exact E|]. intros -> ->. auto.
Qed.

(** Neither thread waits for the other: from every state, moving one thread alone ends its calls. *)
Theorem C36_progress : forall C m,
  (exists n, let t := m_reader (schedule C (repeat Reader n) m) in t_now t = None /\ t_calls t = []) /\
  (exists n, let t := m_writer (schedule C (repeat Writer n) m) in t_now t = None /\ t_calls t = []).
Proof.
  intros C m. split.
  - destruct (thread_ends (rc_proc C) (m_reader m) (m_flag m)) as [n H]. exists n. cbn zeta. rewrite readers. exact H.
  - destruct (thread_ends (wc_proc C) (m_writer m) (m_flag m)) as [n H]. exists n. cbn zeta. rewrite writers. exact H.
Qed.

(** The reader: its results, its state and the flag are those of running it without the writer. *)
Theorem C36_reader : forall C c rs ws xs,
  let m := schedule C xs (split c rs ws) in
  let alone := schedule C (filter (fun x => match x with Reader => true | Writer => false end) xs) (split c rs []) in
  m_reader m = m_reader alone /\ m_flag m = m_flag alone /\
  exists c', one_by_one C c (r_results (m_reader m)) c' /\
    t_local (m_reader m) = (cn_rd c', cn_dec c') /\ m_flag m = cn_opened c' /\ cn_wh c' = cn_wh c.
Proof.
  intros C c rs ws xs m alone. destruct (split_inv C c rs ws) as (R0 & W0 & E0).
  destruct (reader_unaware C xs (split c rs ws) (m_writer (split c rs [])) W0) as [U1 U2].
  split; [exact U1|]. split; [exact U2|].
  destruct (moves C (cn_shared c) xs (split c rs ws) R0 W0) as (R1 & W1 & hr & hw & h & L1 & L2 & M1 & O1).
  fold m in R1, W1, L1, L2, O1. rewrite E0 in O1. cbn [split m_reader m_writer t_log app] in L1, L2.
  pose proof (reader_history C _ _ _ M1 (r_results_like hr) (w_results_like hw) _ _ (cn_wh c) O1) as H.
  replace (mk_conn (cn_rd c) (cn_dec c) (cn_wh c) (cn_shared c) (cn_opened c)) with c in H by now destruct c.
  unfold r_results. rewrite L1. eexists. split; [exact H|]. split; [apply surjective_pairing|]. split; reflexivity.
Qed.

(** The writer: its results and all it sent are those of its calls alone on the connection, the
    last of them ([ys2]) with the flag down; the flag is down only if the reader was told
    that the peer closed. *)
Theorem C36_writer : forall C c rs ws xs,
  let m := schedule C xs (split c rs ws) in
  exists ys1 ys2 c1 c2,
    w_results (m_writer m) = ys1 ++ ys2 /\
    one_by_one C c ys1 c1 /\ one_by_one C (shut c1) ys2 c2 /\ t_local (m_writer m) = cn_wh c2 /\
    (ys2 = [] \/ exists q, In (q, Err ConnectionClosed) (t_log (m_reader m))).
Proof.
  intros C c rs ws xs m. destruct (split_inv C c rs ws) as (R0 & W0 & E0).
  destruct (moves C (cn_shared c) xs (split c rs ws) R0 W0) as (R1 & W1 & hr & hw & h & L1 & L2 & M1 & O1).
  fold m in R1, W1, L1, L2, O1. rewrite E0 in O1. cbn [split m_reader m_writer t_log app] in L1, L2.
  destruct (writer_history C _ _ _ M1 (r_results_like hr) (w_results_like hw) _ _ c O1 eq_refl eq_refl)
    as (y1 & y2 & c1 & c2 & E & H1 & H2 & H3 & H4).
  exists y1, y2, c1, c2. unfold w_results. rewrite L2, E, L1. repeat split; auto.
  destruct H4 as [H4|[o H4]]; [now left|right]. apply in_map_iff in H4 as ([q v] & Eq & Hi). inversion Eq; subst. eauto.
Qed.

(** Once the reader was told that the peer closed, every write that ends later is refused. *)
Theorem C36_closed : forall C c rs ws xs ys,
  let m1 := schedule C xs (split c rs ws) in
  let m2 := schedule C ys m1 in
  (exists q, In (q, Err ConnectionClosed) (t_log (m_reader m1))) ->
  exists later, t_log (m_writer m2) = t_log (m_writer m1) ++ later /\
    forall b v, In (WWrite b, v) later -> v = Err MissingHandshake.
Proof.
  intros C c rs ws xs ys m1 m2 [q Hq]. destruct (split_inv C c rs ws) as (R0 & W0 & E0).
  destruct (moves C (cn_shared c) xs (split c rs ws) R0 W0) as (R1 & W1 & hr & hw & h & L1 & L2 & M1 & O1).
  fold m1 in R1, W1, L1, L2, O1. rewrite E0 in O1. cbn [split m_reader m_writer t_log app] in L1, L2.
  destruct (moves C (cn_shared c) ys m1 R1 W1) as (R2 & W2 & hr' & hw' & h' & L1' & L2' & M2 & O2).
  fold m2 in R2, W2, L1', L2', O2.
  exists hw'. split; [exact L2'|]. intros b v Hi. rewrite L1 in Hq.
  assert (Hf : cn_opened (idle (cn_shared c) m1) = false).
  { apply (proj2 (flag_down C h _ _ O1) (r_op q)). eapply merge_in_left; [exact M1|]. apply in_map_iff. exists (q, Err ConnectionClosed). auto. }
  destruct (writer_history C _ _ _ M2 (r_results_like hr') (w_results_like hw') _ _ _ O2 eq_refl eq_refl)
    as (y1 & y2 & c1 & c2 & E & H1 & H2 & H3 & H4).
  pose proof (w_results_like hw') as Hl. rewrite E in Hl. apply Forall_app in Hl as [Hl1 Hl2].
  assert (Hi' : In (OpWrite b, v) (y1 ++ y2)).
  { rewrite <- E. apply in_map_iff. exists (WWrite b, v). auto. }
  apply in_app_or in Hi' as [Hi'|Hi'].
  - eapply (refused C y1 Hl1); eassumption.
  - eapply (refused C y2 Hl2); [|exact H2|exact Hi']. reflexivity.
Qed.

(** One call after the other, none of them panicking, is a history as in the other theorems. *)
Theorem C36_histories : forall C c h c', one_by_one C c h c' ->
  (forall o v, In (o, v) h -> o <> OpClose /\ (forall x, v <> Panic x) /\ v <> Diverge) ->
  run C (map fst h) c = (h, c').
Proof. intros C c h c'. apply obo_run. Qed.

(** A call that panics or never comes back is the last of its thread: it stands at the end of the
    results, and whatever is scheduled afterwards, that thread does nothing more. *)
Definition fatal {A} (v : outcome tls_error A) : Prop := (exists x, v = Panic x) \/ v = Diverge.
Definition calm {Q L} (t : thread Q L) : Prop :=
  exists l z, t_log t = l ++ z /\ Forall (fun e => ~ fatal (snd e)) l /\
    (z = [] \/ (length z = 1 /\ t_calls t = [] /\ t_now t = None)).

Lemma settle_calm : forall {Q L} (t : thread Q L) cs q p,
  Forall (fun e => ~ fatal (snd e)) (t_log t) -> calm (settle t cs q p).
Proof.
  intros Q L t cs q p H. unfold settle, calm.
  destruct p as [[o l]| |]; cbn [t_log t_calls t_now];
    [|exists (t_log t), []; rewrite app_nil_r; auto|exists (t_log t), []; rewrite app_nil_r; auto].
  assert (D : fatal o \/ ~ fatal o) by (destruct o; try (left; unfold fatal; eauto; fail);
    right; intros [[x F]|F]; discriminate F).
  destruct D as [D|D].
  - exists (t_log t), [(q, o)]. split; [reflexivity|]. split; [exact H|]. right.
    destruct D as [[x ->]| ->]; auto.
  - exists (t_log t ++ [(q, o)]), []. rewrite app_nil_r. split; [reflexivity|]. split; [|left; reflexivity].
    apply Forall_app. split; [exact H|]. constructor; [exact D|constructor].
Qed.

Lemma advance_calm : forall {Q L} body (t : thread Q L) f, calm t -> calm (fst (advance_thread body t f)).
Proof.
  intros Q L body t f Ht. pose proof Ht as (l & z & E & H & [->|(Z & C1 & C2)]).
  - rewrite app_nil_r in E. subst l. unfold advance_thread. destruct (t_now t) as [[q p]|].
    + destruct p; cbn [fst]; apply settle_calm; exact H.
    + destruct (t_calls t); cbn [fst]; [exact Ht|apply settle_calm; exact H].
  - unfold advance_thread. rewrite C2, C1. exact Ht.
Qed.

Lemma schedule_calm : forall C xs m, calm (m_reader m) -> calm (m_writer m) ->
  calm (m_reader (schedule C xs m)) /\ calm (m_writer (schedule C xs m)).
Proof.
  intros C. induction xs as [|x xs IH]; intros m Hr Hw; [auto|]. unfold schedule. cbn [fold_left].
  apply IH; destruct x; unfold move.
  - pose proof (advance_calm (rc_proc C) (m_reader m) (m_flag m) Hr) as A. destruct (advance_thread _ _ _). exact A.
  - destruct (advance_thread _ _ _). exact Hr.
  - destruct (advance_thread _ _ _). exact Hw.
  - pose proof (advance_calm (wc_proc C) (m_writer m) (m_flag m) Hw) as A. destruct (advance_thread _ _ _). exact A.
Qed.

Lemma calm_last : forall {Q L} (t : thread Q L) a q v b, calm t -> t_log t = a ++ (q, v) :: b -> fatal v ->
  b = [] /\ t_calls t = [] /\ t_now t = None.
Proof.
  intros Q L t a q v b (l & z & E & H & Hz) El F. rewrite El in E.
  assert (N : forall b' k, a ++ (q, v) :: b' = k -> Forall (fun e => ~ fatal (snd e)) k -> False).
  { intros b' k <- K. apply Forall_app in K. destruct K as [_ K]. inversion K; subst. auto. }
  destruct Hz as [->|(Z & C1 & C2)]; [exfalso; rewrite app_nil_r in E; exact (N b l E H)|].
  split; [|auto]. destruct z as [|e [|]]; try discriminate Z.
  destruct b as [|e' b _] using rev_ind; [reflexivity|]. exfalso.
  change ((q, v) :: b ++ [e']) with (((q, v) :: b) ++ [e']) in E. rewrite app_assoc in E.
  apply app_inj_tail in E. destruct E as [E _]. exact (N b l E H).
Qed.

Lemma idle_stays : forall C ys m,
  (t_calls (m_reader m) = [] -> t_now (m_reader m) = None -> m_reader (schedule C ys m) = m_reader m) /\
  (t_calls (m_writer m) = [] -> t_now (m_writer m) = None -> m_writer (schedule C ys m) = m_writer m).
Proof.
  intros C. induction ys as [|y ys IH]; intros m; [auto|]. unfold schedule. cbn [fold_left].
  split; intros E1 E2.
  - assert (E : m_reader (move C m y) = m_reader m).
    { destruct y; unfold move; [unfold advance_thread; rewrite E2, E1; reflexivity|].
      destruct (advance_thread _ _ _). reflexivity. }
    etransitivity; [apply (proj1 (IH (move C m y))); rewrite E; assumption|exact E].
  - assert (E : m_writer (move C m y) = m_writer m).
    { destruct y; unfold move; [|unfold advance_thread; rewrite E2, E1; reflexivity].
      destruct (advance_thread _ _ _). reflexivity. }
    etransitivity; [apply (proj2 (IH (move C m y))); rewrite E; assumption|exact E].
Qed.

Theorem C36_panic : forall C c rs ws xs ys,
  let m := schedule C xs (split c rs ws) in
  let m' := schedule C ys m in
  (forall before q v after, t_log (m_reader m) = before ++ (q, v) :: after ->
    (exists x, v = Panic x) \/ v = Diverge -> after = [] /\ m_reader m' = m_reader m) /\
  (forall before q v after, t_log (m_writer m) = before ++ (q, v) :: after ->
    (exists x, v = Panic x) \/ v = Diverge -> after = [] /\ m_writer m' = m_writer m).
Proof.
  intros C c rs ws xs ys m m'.
  destruct (schedule_calm C xs (split c rs ws)) as [Hr Hw];
    [exists [], []; repeat split; auto|exists [], []; repeat split; auto|]. fold m in Hr, Hw.
  split; intros a q v b E F.
  - destruct (calm_last _ _ _ _ _ Hr E F) as (-> & E1 & E2). split; [reflexivity|]. apply (idle_stays C ys m); assumption.
  - destruct (calm_last _ _ _ _ _ Hw E F) as (-> & E1 & E2). split; [reflexivity|]. apply (idle_stays C ys m); assumption.
Qed.
Print Assumptions C36_panic.

(** ** A case: three reads against three writes and a flush *)

Definition s_conn : conn := Eval vm_compute in conn_in (their_wire ++ their_close).
Definition s_reads : list rcall := [RRead (zeros 2); RWith [RbPop 1] RbDrop; RFill; RRead (zeros 2)].
Definition s_writes : list wcall := [WWrite [x41]; WWrite [x42; x43]; WFlush; WWrite [x44]].
(** The reader is in its third call when the writer sends; the writer begins its last write
    before the reader meets the alert and looks at the flag after. *)
Definition s_first : list who :=
  [Reader; Writer; Reader; Reader; Writer; Reader; Writer; Writer; Reader; Reader; Reader; Writer; Writer; Reader; Reader; Reader; Reader; Reader].
Definition s_second : list who := [Reader; Reader; Writer; Reader; Reader].
Definition s_mid : machine := schedule toy s_first (split s_conn s_reads s_writes).
Definition s_end : machine := schedule toy s_second s_mid.
Definition s_show (m : machine) := (t_log (m_reader m), t_log (m_writer m), m_flag m,
  match t_now (m_reader m) with Some (q, _) => Some q | None => None end,
  match t_now (m_writer m) with Some (q, _) => Some q | None => None end, length (tx_log (wh_tx (t_local (m_writer m))))).
Example C36_case :
  s_show s_mid =
    ([(RRead (zeros 2), Ok (VRead 2 [x68; x69])); (RWith [RbPop 1] RbDrop, Ok (VSlices [[x21]])); (RFill, Err ConnectionClosed)],
     [(WWrite [x41], Ok (VCount 1)); (WWrite [x42; x43], Ok (VCount 2)); (WFlush, Ok VUnit)], false, None, Some (WWrite [x44]), 6) /\
  s_show s_end =
    ([(RRead (zeros 2), Ok (VRead 2 [x68; x69])); (RWith [RbPop 1] RbDrop, Ok (VSlices [[x21]])); (RFill, Err ConnectionClosed);
      (RRead (zeros 2), Err MissingHandshake)],
     [(WWrite [x41], Ok (VCount 1)); (WWrite [x42; x43], Ok (VCount 2)); (WFlush, Ok VUnit); (WWrite [x44], Err MissingHandshake)],
     false, None, None, 6).
Proof. split; vm_compute; reflexivity. Qed.

(** The hypothesis of [C36_closed] holds there. *)
Example C36_closed_case : exists q, In (q, Err ConnectionClosed) (t_log (m_reader s_mid)).
Proof.
  exists RFill. pose proof (proj1 C36_case) as H. unfold s_show in H. repeat (apply pair_equal_spec in H as [H _]).
  rewrite H. cbn. auto.
Qed.

(** A reader that panics in its third call (a key update in the clear, C75) and so never makes its
    fourth; the writer goes on. *)
Definition s_crash : conn := Eval vm_compute in conn_in (their_wire ++ [x16; x03; x03; x00; x06; x08; x00; x00; x02; x00; x00]).
Example C36_panic_case :
  s_show (schedule toy (repeat Reader 12 ++ repeat Writer 12)
    (split s_crash [RRead (zeros 2); RRead (zeros 2); RFill; RConsume 0] [WWrite [x41]; WFlush])) =
  ([(RRead (zeros 2), Ok (VRead 2 [x68; x69])); (RRead (zeros 2), Ok (VRead 1 [x21; x00])); (RFill, Panic PUnimplemented)],
   [(WWrite [x41], Ok (VCount 1)); (WFlush, Ok VUnit)], true, None, None, 6).
Proof. vm_compute. reflexivity. Qed.

Print Assumptions C36_order.
Print Assumptions C36_calls.
Print Assumptions C36_progress.
Print Assumptions C36_reader.
Print Assumptions C36_writer.
Print Assumptions C36_closed.
Print Assumptions C36_histories.
