(** * Every interleaving of the two halves is some order of whole calls *)
From Coq Require Import List NArith Arith Bool Lia.
From Verif Require Import Base ParseBuffer Buffer Codes Extensions Crypto KeySchedule Config Handshake Record
  WriteBuffer Transport RecordReader ReadBuffer Connection Api Split SpecSplit BaseProofs FlagProofs.
Import ListNotations.

(** ** A call alone *)

Fixpoint solo {A} (p : proc A) (f : bool) : A * bool :=
  match p with
  | Ret a => (a, f)
  | Load k => solo (k f) f
  | Store b k => solo k b
  end.

(** The flag changes only in the last action of the call. *)
Fixpoint tame {A} (p : proc A) (f : bool) : Prop :=
  match p with
  | Ret _ => True
  | Load k => tame (k f) f
  | Store b k => b = f /\ tame k f \/ b = false /\ exists a, k = Ret a
  end.

Lemma solo_pbind {A B} (m : proc A) (g : A -> proc B) : forall f,
  solo (pbind m g) f = solo (g (fst (solo m f))) (snd (solo m f)).
Proof. induction m as [a|k IH|b k IH]; intros f; cbn [pbind solo]; [reflexivity|apply IH|apply IH]. Qed.

Lemma tame_pbind {A B} (m : proc A) (g : A -> B) : forall f, tame m f -> tame (pbind m (fun a => Ret (g a))) f.
Proof.
  induction m as [a|k IH|b k IH]; intros f H; cbn [pbind tame] in *; [exact I|now apply IH|].
  destruct H as [[E H]|[E [a ->]]]; [left; auto|right; split; [exact E|]]. cbn. eauto.
Qed.

Section Split.
Context (C : crypto).

Definition unhalf {A} (x : outcome tls_error A * rhalf) : (outcome tls_error A * rlocal) * bool :=
  let '(o, (r, (d, f))) := x in ((o, (r, d)), f).

Lemma fill_solo fuel : forall l f,
  solo (sp_fill C fuel l) f = unhalf (fill_loop C fuel (fst l, (snd l, f))) /\ tame (sp_fill C fuel l) f.
Proof.
  induction fuel as [|fuel IH]; intros [r d] f; cbn [sp_fill fill_loop fst snd];
    unfold bind at 1; cbn [get]; unfold bind at 1, lift at 1; cbn [fst snd];
    destruct (dec_is_empty d) as [[]|e|x| |]; cbn [negb]; try (split; [reflexivity|exact I]).
  unfold bind at 1, read_application_data, on_fst. unfold bind at 1. cbn [fst snd].
  destruct (rd_read C r) as [[rec|e|x| |] r1]; try (split; [reflexivity|exact I]).
  unfold bind at 1. cbn [get fst snd solo tame].
  pose proof (flagged_decrypt C (length (rd_buf r1)) rec (r1, (d, f))) as HF. unfold flag in HF.
  destruct (decrypt_record C (read_handler (length (rd_buf r1))) rec (r1, (d, f))) as [res [r2 [d2 f2]]].
  cbn [fst snd] in HF.
  destruct res as [u|e|x| |].
  - destruct HF as [[E _]|[_ ->]]; [discriminate|]. specialize (IH (r2, d2) f). cbn [fst snd] in IH.
    destruct f; [exact IH|]. cbn [solo tame]. destruct IH as [IH1 IH2]. auto.
  - destruct HF as [[E H]|[H1 H2]]; subst f2.
    + split; [reflexivity|]. cbn [tame]. right. eauto.
    + destruct f; (split; [reflexivity|]); cbn [tame]; auto.
  - destruct HF as [[E _]|[_ ->]]; [discriminate|]. split; [reflexivity|exact I].
  - destruct HF as [[E _]|[_ ->]]; [discriminate|]. destruct f; (split; [reflexivity|]); cbn [tame]; auto.
  - destruct HF as [[E _]|[_ ->]]; [discriminate|]. destruct f; (split; [reflexivity|]); cbn [tame]; auto.
Qed.

Lemma buffered_solo l f :
  solo (sp_buffered C l) f = unhalf (rh_read_buffered C (fst l, (snd l, f))) /\ tame (sp_buffered C l) f.
Proof.
  destruct l as [r d]. unfold sp_buffered, rh_read_buffered. cbn [solo tame fst snd]. unfold bind at 1. cbn [get].
  destruct f; [|split; [reflexivity|exact I]]. cbn [fst].
  destruct (fill_solo (S (rx_size (rd_rx r))) (r, d) true) as [H1 H2]. cbn [fst snd] in H1. split.
  - rewrite solo_pbind, H1. unfold bind at 1.
    destruct (fill_loop C _ (r, (d, true))) as [[u|e|x| |] [r' [d' f']]]; reflexivity.
  - now apply tame_pbind.
Qed.

(** What follows [read_buffered] does not look at the flag. *)
Lemma after_flag q b r d f :
  rc_after q b (r, (d, f)) = let '(v, (r', (d', _))) := rc_after q b (r, (d, true)) in (v, (r', (d', f))).
Proof.
  destruct q as [dst| |n|ops fin]; unfold rc_after, rh_drop, rh_set_dec, bind, lift, get, ret, modify; cbn [fst snd].
  - destruct (rb_pop_into dst b); reflexivity.
  - destruct (rb_peek_all b); reflexivity.
  - destruct (rb_pop n b); reflexivity.
  - destruct (rb_run ops b); try reflexivity. destruct fin; reflexivity.
Qed.

(** The calls of the reader as calls on the receiving side. *)
Definition rc_half (q : rcall) : M rhalf tls_error value :=
  match q with
  | RRead dst => nb <- rh_read C dst ;; ret (VRead (fst nb) (snd nb))
  | RFill => b <- rh_fill_buf C ;; ret (VBytes b)
  | RConsume n => rh_consume n ;;; ret VUnit
  | RWith ops fin => l <- rh_with_buffer C ops fin ;; ret (VSlices l)
  end.

Lemma half_step q c : step C (r_op q) c =
  let '(v, (r, (d, f))) := rc_half q (cn_rd c, (cn_dec c, cn_opened c)) in (v, mk_conn r d (cn_wh c) (cn_shared c) f).
Proof.
  destruct q as [dst| |n|ops fin]; cbn [r_op step rc_half]; unfold bind at 1, on_rh; unfold bind at 1.
  - destruct (rh_read C dst _) as [[a|e|x| |] [r [d f]]]; reflexivity.
  - destruct (rh_fill_buf C _) as [[a|e|x| |] [r [d f]]]; reflexivity.
  - destruct (rh_consume n _) as [[a|e|x| |] [r [d f]]]; reflexivity.
  - destruct (rh_with_buffer C ops fin _) as [[a|e|x| |] [r [d f]]]; reflexivity.
Qed.

Lemma half_wait q r d f : (forall n, q <> RConsume n) -> (forall dst, q = RRead dst -> length dst <> 0) ->
  rc_half q (r, (d, f)) = (b <- rh_read_buffered C ;; rc_after q b) (r, (d, f)).
Proof.
  intros H1 H2. destruct q as [dst| |n|ops fin]; cbn [rc_half rc_after].
  - unfold rh_read. destruct (Nat.eqb_spec (length dst) 0) as [E|E]; [now destruct (H2 dst eq_refl)|].
    unfold bind. destruct (rh_read_buffered C (r, (d, f))) as [[b|e|x| |] st]; try reflexivity.
    unfold lift. destruct (rb_pop_into dst b); try reflexivity.
  - unfold rh_fill_buf, bind. destruct (rh_read_buffered C (r, (d, f))) as [[b|e|x| |] st]; try reflexivity.
    unfold lift. destruct (rb_peek_all b); reflexivity.
  - now destruct (H1 n).
  - unfold rh_with_buffer, bind. destruct (rh_read_buffered C (r, (d, f))) as [[b|e|x| |] st]; try reflexivity.
    unfold lift. destruct (rb_run ops b); try reflexivity. destruct fin; reflexivity.
Qed.

Lemma call_solo q l f :
  solo (rc_proc C q l) f = unhalf (rc_half q (fst l, (snd l, f))) /\ tame (rc_proc C q l) f.
Proof.
  destruct l as [r d]. cbn [fst snd].
  assert (W : (forall n, q <> RConsume n) -> (forall dst, q = RRead dst -> length dst <> 0) ->
    let p := pbind (sp_buffered C (r, d)) (fun ol => Ret (rc_finish q (fst ol) (snd ol))) in
    solo p f = unhalf (rc_half q (r, (d, f))) /\ tame p f).
  { intros H1 H2. destruct (buffered_solo (r, d) f) as [S1 S2]. cbn [fst snd] in S1. split.
    - rewrite solo_pbind, S1, (half_wait q r d f H1 H2). unfold bind.
      destruct (rh_read_buffered C (r, (d, f))) as [[b|e|x| |] [r' [d' f']]]; try reflexivity.
      cbn [unhalf fst snd solo]. unfold rc_finish. cbn [fst snd]. unfold bind, lift.
      rewrite (after_flag q b r' d' f'). now destruct (rc_after q b (r', (d', true))) as [v [r2 [d2 f2]]].
    - now apply tame_pbind. }
  destruct q as [dst| |n|ops fin]; unfold rc_proc.
  - destruct (Nat.eqb_spec (length dst) 0) as [E|E].
    + split; [|exact I]. cbn [rc_half solo]. unfold rh_read. rewrite E. reflexivity.
    + apply W; [discriminate|]. intros dst' [= <-]. exact E.
  - apply W; discriminate.
  - split; [|exact I]. cbn [solo rc_half]. unfold rc_finish, rh_consume. cbn [fst snd rc_after].
    unfold bind, get, lift. cbn [fst snd]. destruct (create_read_buffer d (rd_buf r)) as [b|e|x| |]; try reflexivity.
    cbn [rc_after]. unfold bind, lift. destruct (rb_pop n b); reflexivity.
  - apply W; discriminate.
Qed.

Lemma reader_call q c :
  step C (r_op q) c =
  let '((v, (r, d)), f) := solo (rc_proc C q (cn_rd c, cn_dec c)) (cn_opened c) in
  (v, mk_conn r d (cn_wh c) (cn_shared c) f).
Proof.
  rewrite half_step. rewrite (proj1 (call_solo q (cn_rd c, cn_dec c) (cn_opened c))). cbn [fst snd].
  now destruct (rc_half q _) as [v [r [d f]]].
Qed.

Lemma writer_call q c :
  step C (w_op q) c =
  let '((v, w), _) := solo (wc_proc C q (cn_wh c)) (cn_opened c) in
  (v, mk_conn (cn_rd c) (cn_dec c) w (cn_shared c) (cn_opened c)).
Proof.
  destruct q as [b|]; cbn [w_op step wc_proc solo].
  - unfold cn_write, bind, get, on_wh.
    destruct (wh_write C (cn_opened c) b (cn_wh c)) as [[n|e|x| |] w]; reflexivity.
  - unfold cn_flush, on_wh, bind. destruct (wh_flush C (cn_wh c)) as [[n|e|x| |] w]; reflexivity.
Qed.

(** ** Histories *)

Lemma obo_app h1 : forall c c1 h2 c2, one_by_one C c h1 c1 -> one_by_one C c1 h2 c2 -> one_by_one C c (h1 ++ h2) c2.
Proof. induction h1 as [|x h1 IH]; intros c c1 h2 c2 H1 H2; inversion H1; subst; [exact H2|]. econstructor; [eassumption|]. eapply IH; eassumption. Qed.

Lemma obo_snoc c h c1 o r c2 : one_by_one C c h c1 -> step C o c1 = (r, c2) -> one_by_one C c (h ++ [(o, r)]) c2.
Proof. intros H E. eapply obo_app; [exact H|]. econstructor; [exact E|constructor]. Qed.

Lemma merge_left_snoc {A} (xs ys zs : list A) z : merge xs ys zs -> merge (xs ++ [z]) ys (zs ++ [z]).
Proof. induction 1; cbn; repeat constructor; assumption. Qed.
Lemma merge_right_snoc {A} (xs ys zs : list A) z : merge xs ys zs -> merge xs (ys ++ [z]) (zs ++ [z]).
Proof. induction 1; cbn; repeat constructor; assumption. Qed.

(** ** The invariant *)

(** The state of both halves between calls, with the calls in progress not begun. *)
Definition idle (sh : shared) (m : machine) : conn :=
  mk_conn (fst (t_local (m_reader m))) (snd (t_local (m_reader m))) (t_local (m_writer m)) sh (m_flag m).

Definition r_inv (m : machine) : Prop :=
  match t_now (m_reader m) with
  | None => True
  | Some (q, p) => tame p (m_flag m) /\ (forall a, p <> Ret a) /\
      solo p (m_flag m) = solo (rc_proc C q (t_local (m_reader m))) (m_flag m)
  end.
Definition w_inv (m : machine) : Prop :=
  match t_now (m_writer m) with
  | None => True
  | Some (q, p) => p = wc_proc C q (t_local (m_writer m)) /\ exists b, q = WWrite b
  end.

Lemma ret_dec {A} (p : proc A) : (exists a, p = Ret a) \/ (forall a, p <> Ret a).
Proof. destruct p; [left; eauto|right; discriminate|right; discriminate]. Qed.

(** A call goes on, or ends here. *)
Lemma settle_ret {Q L} (t : thread Q L) qs q o l :
  let t' := settle t qs q (Ret (o, l)) in t_local t' = l /\ t_now t' = None /\ t_log t' = t_log t ++ [(q, o)].
Proof. cbn. auto. Qed.
Lemma settle_more {Q L} (t : thread Q L) qs q p : (forall a, p <> Ret a) ->
  settle t qs q p = mk_thread (t_local t) qs (Some (q, p)) (t_log t).
Proof. destruct p as [[o l]| |]; intros H; [now destruct (H (o, l))|reflexivity|reflexivity]. Qed.

(** The call [q] has come to [p] and the flag to [f]; alone it goes on like the whole call. *)
Lemma reader_settles sh (m : machine) qs q p f :
  (f = m_flag m /\ tame p f \/ exists a, p = Ret a) ->
  solo p f = solo (rc_proc C q (t_local (m_reader m))) (m_flag m) ->
  let m' := mk_machine f (settle (m_reader m) qs q p) (m_writer m) in
  r_inv m' /\
  ((idle sh m' = idle sh m /\ t_log (m_reader m') = t_log (m_reader m)) \/
   exists o, step C (r_op q) (idle sh m) = (o, idle sh m') /\ t_log (m_reader m') = t_log (m_reader m) ++ [(q, o)]).
Proof.
  intros Hp HS. destruct (ret_dec p) as [[[o l] ->]|Hn].
  - cbn zeta. split; [exact I|]. right. exists o. split; [|reflexivity].
    rewrite reader_call. cbn [idle cn_rd cn_dec cn_opened cn_wh cn_shared].
    replace (fst (t_local (m_reader m)), snd (t_local (m_reader m))) with (t_local (m_reader m)) by now destruct (t_local (m_reader m)).
    rewrite <- HS. cbn [solo]. destruct l as [r d]. reflexivity.
  - cbn zeta. destruct Hp as [[-> Ht]|[a ->]]; [|now destruct (Hn a)].
    rewrite settle_more by exact Hn. split; [|left; split; reflexivity].
    unfold r_inv. cbn. auto.
Qed.

Lemma reader_moves sh m : r_inv m -> let m' := move C m Reader in
  r_inv m' /\ m_writer m' = m_writer m /\
  ((idle sh m' = idle sh m /\ t_log (m_reader m') = t_log (m_reader m)) \/
   exists q o, step C (r_op q) (idle sh m) = (o, idle sh m') /\ t_log (m_reader m') = t_log (m_reader m) ++ [(q, o)]).
Proof.
  intros Hi. cbn zeta. unfold move, advance_thread. pose proof Hi as Hr. unfold r_inv in Hr.
  destruct (t_now (m_reader m)) as [[q p]|] eqn:En.
  - destruct Hr as (Ht & Hn & HS).
    assert (K : forall p' f', (f' = m_flag m /\ tame p' f' \/ exists a, p' = Ret a) -> solo p' f' = solo p (m_flag m) ->
      let m' := mk_machine f' (settle (m_reader m) (t_calls (m_reader m)) q p') (m_writer m) in
      r_inv m' /\ m_writer m' = m_writer m /\
      ((idle sh m' = idle sh m /\ t_log (m_reader m') = t_log (m_reader m)) \/
       exists q o, step C (r_op q) (idle sh m) = (o, idle sh m') /\ t_log (m_reader m') = t_log (m_reader m) ++ [(q, o)])).
    { intros p' f' Hp' HS'. rewrite HS in HS'. destruct (reader_settles sh m (t_calls (m_reader m)) q p' f' Hp' HS') as [H1 H2].
      split; [exact H1|]. split; [reflexivity|]. destruct H2 as [H2|[o H2]]; [now left|right; eauto]. }
    destruct p as [a|k|b k]; [now destruct (Hn a)| |]; apply K; cbn [solo tame] in *.
    + left. auto.
    + reflexivity.
    + destruct Ht as [[E H]|[E H]]; [left; subst b; auto|right; exact H].
    + reflexivity.
  - destruct (t_calls (m_reader m)) as [|q qs] eqn:Eq.
    + replace (mk_machine (m_flag m) (m_reader m) (m_writer m)) with m by now destruct m.
      split; [exact Hi|]. split; [reflexivity|]. left. split; reflexivity.
    + destruct (reader_settles sh m qs q (rc_proc C q (t_local (m_reader m))) (m_flag m)) as [H1 H2]; [|reflexivity|].
      * left. split; [reflexivity|]. apply call_solo.
      * split; [exact H1|]. split; [reflexivity|]. destruct H2 as [H2|[o H2]]; [now left|right; eauto].
Qed.

Lemma writer_moves sh m : w_inv m -> let m' := move C m Writer in
  w_inv m' /\ m_reader m' = m_reader m /\ m_flag m' = m_flag m /\
  ((idle sh m' = idle sh m /\ t_log (m_writer m') = t_log (m_writer m)) \/
   exists q o, step C (w_op q) (idle sh m) = (o, idle sh m') /\ t_log (m_writer m') = t_log (m_writer m) ++ [(q, o)]).
Proof.
  intros Hi. cbn zeta. unfold move, advance_thread. pose proof Hi as Hw. unfold w_inv in Hw.
  destruct (t_now (m_writer m)) as [[q p]|] eqn:En.
  - destruct Hw as [-> [b ->]]. cbn [wc_proc].
    pose proof (writer_call (WWrite b) (idle sh m)) as HC. cbn [wc_proc solo idle cn_wh cn_opened cn_rd cn_dec cn_shared] in HC.
    destruct ((n <- wh_write C (m_flag m) b ;; ret (VCount n)) (t_local (m_writer m))) as [o w].
    split; [exact I|]. split; [reflexivity|]. split; [reflexivity|]. right. exists (WWrite b), o. split; [exact HC|reflexivity].
  - destruct (t_calls (m_writer m)) as [|q qs] eqn:Eq.
    + replace (mk_machine (m_flag m) (m_reader m) (m_writer m)) with m by now destruct m.
      split; [exact Hi|]. split; [reflexivity|]. split; [reflexivity|]. left. split; reflexivity.
    + destruct q as [b|].
      * cbn [wc_proc settle]. split; [unfold w_inv; cbn; eauto|]. split; [reflexivity|]. split; [reflexivity|]. left. split; reflexivity.
      * pose proof (writer_call WFlush (idle sh m)) as HC. cbn [wc_proc solo idle cn_wh cn_opened cn_rd cn_dec cn_shared] in HC.
        cbn [wc_proc]. destruct ((wh_flush C ;;; ret VUnit) (t_local (m_writer m))) as [o w].
        split; [exact I|]. split; [reflexivity|]. split; [reflexivity|]. right. exists WFlush, o. split; [exact HC|reflexivity].
Qed.

(** Both invariants, along a schedule, with a history of whole calls. *)
Lemma moves sh xs : forall m, r_inv m -> w_inv m ->
  let m' := schedule C xs m in
  r_inv m' /\ w_inv m' /\
  exists hr hw h, t_log (m_reader m') = t_log (m_reader m) ++ hr /\ t_log (m_writer m') = t_log (m_writer m) ++ hw /\
    merge (map (fun p => (r_op (fst p), snd p)) hr) (map (fun p => (w_op (fst p), snd p)) hw) h /\
    one_by_one C (idle sh m) h (idle sh m').
Proof.
  induction xs as [|x xs IH]; intros m Hr Hw; cbn zeta.
  - split; [exact Hr|]. split; [exact Hw|]. exists [], [], []. rewrite !app_nil_r. repeat split; constructor.
  - unfold schedule in *. cbn [fold_left]. destruct x.
    + destruct (reader_moves sh m Hr) as (Hr' & Ew & Hc).
      assert (Hw' : w_inv (move C m Reader)) by (unfold w_inv in *; rewrite Ew; exact Hw).
      destruct (IH _ Hr' Hw') as (I1 & I2 & hr & hw & h & E1 & E2 & Hm & Ho).
      split; [exact I1|]. split; [exact I2|]. rewrite E2, Ew. destruct Hc as [[Ei El]|(q & o & Es & El)].
      * rewrite Ei in Ho. rewrite El in E1. exists hr, hw, h. auto.
      * exists ((q, o) :: hr), hw, ((r_op q, o) :: h). rewrite E1, El, <- app_assoc. repeat split; [now constructor|]. econstructor; eassumption.
    + destruct (writer_moves sh m Hw) as (Hw' & Er & Ef & Hc).
      assert (Hr' : r_inv (move C m Writer)) by (unfold r_inv in *; rewrite Er, Ef; exact Hr).
      destruct (IH _ Hr' Hw') as (I1 & I2 & hr & hw & h & E1 & E2 & Hm & Ho).
      split; [exact I1|]. split; [exact I2|]. rewrite E1, Er. destruct Hc as [[Ei El]|(q & o & Es & El)].
      * rewrite Ei in Ho. rewrite El in E2. exists hr, hw, h. auto.
      * exists hr, ((q, o) :: hw), ((w_op q, o) :: h). rewrite E2, El, <- app_assoc. repeat split; [now constructor|]. econstructor; eassumption.
Qed.

Lemma split_inv c rs ws : r_inv (split c rs ws) /\ w_inv (split c rs ws) /\ idle (cn_shared c) (split c rs ws) = c.
Proof. split; [exact I|]. split; [exact I|]. now destruct c. Qed.

(** ** The reader alone, the writer alone *)

(** A reader call does not look at the sending side, nor change it. *)
Lemma reader_frame q c w : step C (r_op q) (mk_conn (cn_rd c) (cn_dec c) w (cn_shared c) (cn_opened c)) =
  (fst (step C (r_op q) c), let c1 := snd (step C (r_op q) c) in mk_conn (cn_rd c1) (cn_dec c1) w (cn_shared c1) (cn_opened c1)) /\
  cn_wh (snd (step C (r_op q) c)) = cn_wh c /\ cn_shared (snd (step C (r_op q) c)) = cn_shared c.
Proof.
  rewrite !half_step. cbn [cn_rd cn_dec cn_opened cn_wh cn_shared].
  destruct (rc_half q _) as [v [r [d f]]]. cbn. auto.
Qed.
Lemma writer_frame q c : let c1 := snd (step C (w_op q) c) in
  cn_rd c1 = cn_rd c /\ cn_dec c1 = cn_dec c /\ cn_opened c1 = cn_opened c /\ cn_shared c1 = cn_shared c.
Proof. cbn zeta. rewrite writer_call. destruct (solo _ _) as [[v w] f]. cbn. auto. Qed.
Lemma writer_local q c r d sh : step C (w_op q) (mk_conn r d (cn_wh c) sh (cn_opened c)) =
  (fst (step C (w_op q) c), mk_conn r d (cn_wh (snd (step C (w_op q) c))) sh (cn_opened c)).
Proof.
  rewrite !writer_call. cbn [cn_rd cn_dec cn_opened cn_wh cn_shared].
  destruct (solo _ _) as [[v w] f]. reflexivity.
Qed.

End Split.

(** ** Each half alone *)

Section Alone.
Context (C : crypto).

Definition r_like (p : op * outcome tls_error value) : Prop := exists q, fst p = r_op q.
Definition w_like (p : op * outcome tls_error value) : Prop := exists q, fst p = w_op q.

Lemma r_results_like (l : list (rcall * outcome tls_error value)) : Forall r_like (map (fun p => (r_op (fst p), snd p)) l).
Proof. induction l; constructor; [|assumption]. eexists. reflexivity. Qed.
Lemma w_results_like (l : list (wcall * outcome tls_error value)) : Forall w_like (map (fun p => (w_op (fst p), snd p)) l).
Proof. induction l; constructor; [|assumption]. eexists. reflexivity. Qed.

Lemma reader_history xs ys zs : merge xs ys zs -> Forall r_like xs -> Forall w_like ys ->
  forall c c' w, one_by_one C c zs c' ->
  one_by_one C (mk_conn (cn_rd c) (cn_dec c) w (cn_shared c) (cn_opened c)) xs
    (mk_conn (cn_rd c') (cn_dec c') w (cn_shared c') (cn_opened c')).
Proof.
  induction 1 as [|[o v] xs ys zs Hm IH|[o v] xs ys zs Hm IH]; intros Hx Hy c c' w Ho.
  - inversion Ho; subst. constructor.
  - inversion Ho as [|? ? ? c1 ? ? Es Ho']; subst. inversion Hx as [|? ? [q Eq] Hx']; subst. cbn in Eq. subst o.
    destruct (reader_frame C q c w) as (H1 & H2 & H3). rewrite Es in *. cbn [fst snd] in *.
    econstructor; [exact H1|]. now apply IH.
  - inversion Ho as [|? ? ? c1 ? ? Es Ho']; subst. inversion Hy as [|? ? [q Eq] Hy']; subst. cbn in Eq. subst o.
    destruct (writer_frame C q c) as (H1 & H2 & H3 & H4). rewrite Es in *. cbn [fst snd] in *.
    rewrite <- H1, <- H2, <- H3, <- H4. now apply IH.
Qed.

Lemma writer_keeps ys : Forall w_like ys -> forall c c', one_by_one C c ys c' ->
  cn_rd c' = cn_rd c /\ cn_dec c' = cn_dec c /\ cn_opened c' = cn_opened c /\ cn_shared c' = cn_shared c.
Proof.
  induction ys as [|[o v] ys IH]; intros Hy c c' Ho; inversion Ho as [|? ? ? c1 ? ? Es Ho']; subst; [auto|].
  inversion Hy as [|? ? [q Eq] Hy']; subst. cbn in Eq. subst o.
  destruct (writer_frame C q c) as (H1 & H2 & H3 & H4). rewrite Es in *. cbn [fst snd] in *.
  destruct (IH Hy' _ _ Ho') as (J1 & J2 & J3 & J4). repeat split; congruence.
Qed.

Lemma writer_history xs ys zs : merge xs ys zs -> Forall r_like xs -> Forall w_like ys ->
  forall c c' cw, one_by_one C c zs c' -> cn_wh cw = cn_wh c -> cn_opened cw = cn_opened c ->
  exists y1 y2 c1 c2, ys = y1 ++ y2 /\ one_by_one C cw y1 c1 /\ one_by_one C (shut c1) y2 c2 /\
    cn_wh c2 = cn_wh c' /\ (y2 = [] \/ exists o, In (o, Err ConnectionClosed) xs).
Proof.
  induction 1 as [|[o v] xs ys zs Hm IH|[o v] xs ys zs Hm IH]; intros Hx Hy c c' cw Ho Ew Eo.
  - inversion Ho; subst. exists [], [], cw, (shut cw). repeat split; try constructor; auto.
  - inversion Ho as [|? ? ? c1 ? ? Es Ho']; subst. inversion Hx as [|? ? [q Eq] Hx']; subst. cbn in Eq. subst o.
    destruct (reader_frame C q c (cn_wh c)) as (_ & H2 & _). rewrite Es in H2. cbn [snd] in H2.
    destruct (step_flag _ _ _ _ _ Es) as [[-> Ef]|[_ Ef]].
    + destruct (IH Hx' Hy c1 c' (shut cw) Ho') as (y1 & y2 & d1 & d2 & -> & O1 & O2 & E1 & E2); [cbn; congruence|cbn; congruence|].
      exists [], (y1 ++ y2), cw, d2. split; [reflexivity|]. split; [constructor|]. split.
      * eapply obo_app; [exact O1|]. apply Forall_app in Hy as [Hy1 _].
        destruct (writer_keeps _ Hy1 _ _ O1) as (_ & _ & Ed & _). cbn in Ed. replace (shut d1) with d1 in O2; [exact O2|].
        destruct d1. unfold shut. cbn in *. now subst.
      * split; [exact E1|]. right. eexists. left. reflexivity.
    + destruct (IH Hx' Hy c1 c' cw Ho') as (y1 & y2 & d1 & d2 & -> & O1 & O2 & E1 & E2); [congruence|congruence|].
      exists y1, y2, d1, d2. split; [reflexivity|]. split; [exact O1|]. split; [exact O2|]. split; [exact E1|].
      destruct E2 as [E2|[o E2]]; [now left|right]. exists o. now right.
  - inversion Ho as [|? ? ? c1 ? ? Es Ho']; subst. inversion Hy as [|? ? [q Eq] Hy']; subst. cbn in Eq. subst o.
    destruct (writer_frame C q c) as (H1 & H2 & H3 & H4). rewrite Es in *. cbn [fst snd] in *.
    pose proof (writer_local C q c (cn_rd cw) (cn_dec cw) (cn_shared cw)) as HL. rewrite Es in HL. cbn [fst snd] in HL.
    rewrite <- Ew, <- Eo in HL. replace (mk_conn (cn_rd cw) (cn_dec cw) (cn_wh cw) (cn_shared cw) (cn_opened cw)) with cw in HL by now destruct cw.
    destruct (IH Hx Hy' c1 c' _ Ho' (eq_refl : cn_wh (mk_conn (cn_rd cw) (cn_dec cw) (cn_wh c1) (cn_shared cw) (cn_opened cw)) = cn_wh c1))
      as (y1 & y2 & d1 & d2 & -> & O1 & O2 & E1 & E2); [cbn; congruence|].
    exists ((w_op q, v) :: y1), y2, d1, d2. split; [reflexivity|]. split; [econstructor; eassumption|]. auto.
Qed.

(** The flag never goes up again. *)
Lemma flag_down h : forall c c', one_by_one C c h c' ->
  (cn_opened c = false -> cn_opened c' = false) /\ (forall o, In (o, Err ConnectionClosed) h -> cn_opened c' = false).
Proof.
  induction h as [|[o v] h IH]; intros c c' Ho; inversion Ho as [|? ? ? c1 ? ? Es Ho']; subst; [split; [auto|intros ? []]|].
  destruct (IH _ _ Ho') as [I1 I2]. destruct (step_flag _ _ _ _ _ Es) as [[-> Ef]|[Hn Ef]].
  - split; intros; now apply I1.
  - split; [rewrite <- Ef; exact I1|]. intros o' [E|Hi]; [|now apply (I2 o')]. inversion E; subst. now destruct Hn.
Qed.

Lemma merge_in_left {A} (xs ys zs : list A) x : merge xs ys zs -> In x xs -> In x zs.
Proof. induction 1; cbn; intuition. Qed.
Lemma merge_in_right {A} (xs ys zs : list A) x : merge xs ys zs -> In x ys -> In x zs.
Proof. induction 1; cbn; intuition. Qed.
Lemma merge_app {A} (xs ys zs : list A) : merge xs ys zs -> forall xs' ys' zs', merge xs' ys' zs' -> merge (xs ++ xs') (ys ++ ys') (zs ++ zs').
Proof. induction 1; intros; cbn; try constructor; auto. Qed.

Lemma write_refused b c : cn_opened c = false -> fst (step C (OpWrite b) c) = Err MissingHandshake.
Proof. intros E. cbn [step]. unfold cn_write, bind, get, on_wh, wh_write. rewrite E. reflexivity. Qed.
Lemma refused h : Forall w_like h -> forall c c', cn_opened c = false -> one_by_one C c h c' ->
  forall b v, In (OpWrite b, v) h -> v = Err MissingHandshake.
Proof.
  induction h as [|[o v0] h IH]; intros Hl c c' Hf Ho b v; inversion Ho as [|? ? ? c1 ? ? Es Ho']; subst; intros [].
  - inversion H; subst. pose proof (write_refused b c Hf) as E. rewrite Es in E. exact E.
  - inversion Hl as [|? ? [q Eq] Hl']; subst. cbn in Eq. subst o.
    destruct (writer_frame C q c) as (_ & _ & H3 & _). rewrite Es in H3. cbn [snd] in H3.
    eapply (IH Hl' c1); [congruence|exact Ho'|exact H].
Qed.

(** One call after the other is what [run] does, as long as nobody panics. *)
Lemma obo_run h : forall c c', one_by_one C c h c' ->
  (forall o v, In (o, v) h -> o <> OpClose /\ (forall x, v <> Panic x) /\ v <> Diverge) ->
  run C (map fst h) c = (h, c').
Proof.
  induction h as [|[o v] h IH]; intros c c' Ho Hn; inversion Ho as [|? ? ? c1 ? ? Es Ho']; subst; [reflexivity|].
  cbn [map fst run]. rewrite Es. rewrite (IH _ _ Ho') by (intros; apply Hn; now right).
  destruct (Hn o v (or_introl eq_refl)) as (N1 & N2 & N3).
  destruct v as [a|e|x| |]; [| |now destruct (N2 x)|now destruct N3|]; destruct o; try reflexivity; now destruct N1.
Qed.
End Alone.

(** ** What the threads have done of what they had to do *)

Section Calls.
Context {Q L : Type} (body : Q -> L -> proc (outcome tls_error value * L)).

Definition stopped (t : thread Q L) : Prop := exists q v, In (q, v) (t_log t) /\ ((exists x, v = Panic x) \/ v = Diverge).
Definition todo (t : thread Q L) : list Q := match t_now t with Some (q, _) => q :: t_calls t | None => t_calls t end.
Definition of_calls (qs : list Q) (t : thread Q L) : Prop :=
  qs = map fst (t_log t) ++ todo t \/ stopped t /\ todo t = [] /\ exists rest, qs = map fst (t_log t) ++ rest.

Lemma settle_calls qs (t : thread Q L) calls q p :
  qs = map fst (t_log t) ++ q :: calls -> of_calls qs (settle t calls q p).
Proof.
  intros E. destruct p as [[o l]|k|b k]; cbn [settle]; [|left; exact E|left; exact E].
  assert (E' : qs = map fst (t_log t ++ [(q, o)]) ++ calls) by now rewrite map_app, <- app_assoc.
  destruct o; try (left; exact E'); right; (split; [|split; [reflexivity|eexists; exact E']]);
    exists q; eexists; (split; [apply in_or_app; right; left; reflexivity|eauto]).
Qed.

Lemma advance_calls qs t f : of_calls qs t -> of_calls qs (fst (advance_thread body t f)).
Proof.
  intros H. unfold advance_thread. destruct H as [H|(Hs & Ht & rest & H)]; unfold todo in *.
  - destruct (t_now t) as [[q [a|k|b k]]|] eqn:En; cbn [fst]; try (now apply settle_calls).
    destruct (t_calls t) as [|q qs'] eqn:Ec; cbn [fst].
    + left. unfold todo. now rewrite En, Ec.
    + now apply settle_calls.
  - destruct (t_now t) as [[q p]|] eqn:En; [discriminate|]. rewrite Ht. cbn [fst].
    right. unfold todo. rewrite En. eauto.
Qed.

(** A thread left alone ends its calls. *)
Fixpoint advances (n : nat) (x : thread Q L * bool) : thread Q L * bool :=
  match n with O => x | S n' => advances n' (advance_thread body (fst x) (snd x)) end.
Definition done (t : thread Q L) : Prop := t_now t = None /\ t_calls t = [].

Lemma advances_add a b x : advances (a + b) x = advances b (advances a x).
Proof. revert x. induction a as [|a IH]; intros x; [reflexivity|]. cbn. apply IH. Qed.

(** The call in progress ends. *)
Lemma call_ends (p : proc (outcome tls_error value * L)) : forall t calls q f,
  exists n t' f', advances n (settle t calls q p, f) = (t', f') /\ t_now t' = None /\ length (t_calls t') <= length calls.
Proof.
  induction p as [[o l]|k IH|b k IH]; intros t calls q f.
  - exists 0. do 2 eexists. split; [reflexivity|]. split; [reflexivity|]. cbn. destruct o; cbn; lia.
  - destruct (IH f (mk_thread (t_local t) calls (Some (q, Load k)) (t_log t)) calls q f) as (n & t' & f' & E & H).
    exists (S n), t', f'. split; [|exact H]. exact E.
  - destruct (IH (mk_thread (t_local t) calls (Some (q, Store b k)) (t_log t)) calls q b) as (n & t' & f' & E & H).
    exists (S n), t', f'. split; [|exact H]. exact E.
Qed.

Lemma all_end n : forall t f, t_now t = None -> length (t_calls t) <= n -> exists k, done (fst (advances k (t, f))).
Proof.
  induction n as [|n IH]; intros t f Hn Hl.
  - exists 0. split; [exact Hn|]. cbn. destruct (t_calls t); [reflexivity|cbn in Hl; lia].
  - destruct (t_calls t) as [|q qs] eqn:Ec; [exists 0; split; assumption|].
    destruct (call_ends (body q (t_local t)) t qs q f) as (k & t' & f' & E & H1 & H2).
    destruct (IH t' f' H1) as [k' Hk]; [cbn in Hl; lia|].
    exists (S k + k'). rewrite advances_add. cbn [advances fst snd]. unfold advance_thread at 1. rewrite Hn, Ec, E. exact Hk.
Qed.

Lemma thread_ends t f : exists k, done (fst (advances k (t, f))).
Proof.
  destruct (t_now t) as [[q p]|] eqn:En; [|now apply (all_end (length (t_calls t)))].
  assert (exists k0 t' f', advances k0 (t, f) = (t', f') /\ t_now t' = None) as (k0 & t' & f' & E & Ht).
  { destruct p as [[o l]|k|b k].
    - exists 1. cbn [advances fst snd]. unfold advance_thread. rewrite En. do 2 eexists. split; reflexivity.
    - destruct (call_ends (k f) t (t_calls t) q f) as (n & t' & f' & E & H1 & _). exists (S n), t', f'. split; [|exact H1].
      cbn [advances fst snd]. unfold advance_thread at 1. rewrite En. exact E.
    - destruct (call_ends k t (t_calls t) q b) as (n & t' & f' & E & H1 & _). exists (S n), t', f'. split; [|exact H1].
      cbn [advances fst snd]. unfold advance_thread at 1. rewrite En. exact E. }
  destruct (all_end (length (t_calls t')) t' f' Ht (le_n _)) as [k Hk]. exists (k0 + k). now rewrite advances_add, E.
Qed.
End Calls.

Section Machine.
Context (C : crypto).

Lemma schedule_app xs ys m : schedule C (xs ++ ys) m = schedule C ys (schedule C xs m).
Proof. apply fold_left_app. Qed.

Lemma schedule_calls rs ws xs : forall m, of_calls rs (m_reader m) -> of_calls ws (m_writer m) ->
  of_calls rs (m_reader (schedule C xs m)) /\ of_calls ws (m_writer (schedule C xs m)).
Proof.
  induction xs as [|x xs IH]; intros m Hr Hw; [auto|]. unfold schedule in *. cbn [fold_left]. apply IH; destruct x; cbn [move].
  - pose proof (advance_calls (rc_proc C) rs _ (m_flag m) Hr) as H. now destruct (advance_thread _ _ _).
  - now destruct (advance_thread (wc_proc C) (m_writer m) (m_flag m)).
  - now destruct (advance_thread (rc_proc C) (m_reader m) (m_flag m)).
  - pose proof (advance_calls (wc_proc C) ws _ (m_flag m) Hw) as H. now destruct (advance_thread _ _ _).
Qed.

Lemma readers n : forall m, schedule C (repeat Reader n) m =
  let x := advances (rc_proc C) n (m_reader m, m_flag m) in mk_machine (snd x) (fst x) (m_writer m).
Proof.
  induction n as [|n IH]; intros m; [now destruct m|]. unfold schedule in *. cbn [repeat fold_left]. rewrite IH.
  cbn [advances move fst snd]. now destruct (advance_thread _ _ _).
Qed.
Lemma writers n : forall m, schedule C (repeat Writer n) m =
  let x := advances (wc_proc C) n (m_writer m, m_flag m) in mk_machine (snd x) (m_reader m) (fst x).
Proof.
  induction n as [|n IH]; intros m; [now destruct m|]. unfold schedule in *. cbn [repeat fold_left]. rewrite IH.
  cbn [advances move fst snd]. now destruct (advance_thread _ _ _).
Qed.

(** The reader does not notice the writer at all. *)
Lemma reader_unaware xs : forall m ws', w_inv C m ->
  let m0 := mk_machine (m_flag m) (m_reader m) ws' in
  m_reader (schedule C xs m) = m_reader (schedule C (filter (fun x => match x with Reader => true | Writer => false end) xs) m0) /\
  m_flag (schedule C xs m) = m_flag (schedule C (filter (fun x => match x with Reader => true | Writer => false end) xs) m0).
Proof.
  induction xs as [|x xs IH]; intros m ws' Hw; cbn zeta; [split; reflexivity|].
  unfold schedule in *. cbn [fold_left filter]. destruct x.
  - cbn [fold_left]. cbn [move m_reader m_flag m_writer].
    destruct (advance_thread (rc_proc C) (m_reader m) (m_flag m)) as [t f]. apply (IH (mk_machine f t (m_writer m)) ws'). exact Hw.
  - destruct (writer_moves C (cn_shared (mk_conn (fst (t_local (m_reader m))) (snd (t_local (m_reader m))) (t_local (m_writer m)) (ks_shared (ks_new C)) true)) m Hw) as (H1 & H2 & H3 & _).
    specialize (IH (move C m Writer) ws' H1). cbn zeta in IH. rewrite H2, H3 in IH. exact IH.
Qed.
End Machine.
