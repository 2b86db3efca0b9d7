(** * Receiving on an established connection: the state after [open], and whole histories *)
From Coq Require Import List NArith Arith Bool Lia ZArith.
From Coq.Strings Require Import Byte.
From Coq Require Import ZifyBool ZifyNat ZifyN.
From Verif Require Import Base ParseBuffer Buffer Codes Extensions Crypto KeySchedule Config Handshake Record WriteBuffer
  Transport RecordReader ReadBuffer Connection Api BaseProofs ParseProofs SpecWire SpecKeys SpecRecord SpecRead
  KeyProofs RecordProofs SpecSend SendProofs SpecHello HsWrite HsProofs ConnProofs FrameProofs DecryptProofs FlagProofs ReadProofs.
Import ListNotations.

(** ** Decryption does not move the reader *)

Section Pos.
Context {S : Type} (C : crypto) (cb : rks -> server_record -> M S tls_error unit).

Definition stays {A} (m : M (rdst * S) tls_error A) : Prop := forall st, same_pos (fst (snd (m st))) (fst st).

Lemma same_pos_refl s : same_pos s s. Proof. repeat split. Qed.
Lemma same_pos_trans a b c : same_pos a b -> same_pos b c -> same_pos a c.
Proof. intros (A1 & A2 & A3 & A4) (B1 & B2 & B3 & B4). repeat split; congruence. Qed.

Lemma stays_bind {A B} (m : M (rdst * S) tls_error A) (f : A -> M (rdst * S) tls_error B) :
  stays m -> (forall a, stays (f a)) -> stays (bind m f).
Proof.
  intros Hm Hf st. specialize (Hm st). unfold bind. destruct (m st) as [[a|e|x| |] st']; cbn [snd fst] in *; auto.
  eapply same_pos_trans; [apply Hf|exact Hm].
Qed.
Lemma stays_pure {A} (m : M (rdst * S) tls_error A) : (forall st, fst (snd (m st)) = fst st) -> stays m.
Proof. intros H st. rewrite H. apply same_pos_refl. Qed.
Lemma stays_get {B} (f : rdst * S -> M (rdst * S) tls_error B) : (forall s, stays (f s)) -> stays (bind get f).
Proof. intros H st. exact (H st st). Qed.
Lemma stays_fst {A} (m : M rdst tls_error A) : (forall s, same_pos (snd (m s)) s) -> stays (on_fst m).
Proof. intros H st. unfold on_fst. specialize (H (fst st)). now destruct (m (fst st)). Qed.
Lemma stays_cb r : stays (call_cb cb r).
Proof. apply stays_pure. intros st. unfold call_cb. now destruct (cb _ r (snd st)). Qed.

Lemma stays_loop fuel q : stays (handshake_loop C cb fuel q).
Proof.
  revert q. induction fuel as [|fuel IH]; intros q; cbn [handshake_loop];
    (apply stays_bind; [apply stays_pure; reflexivity|]); intros r; destruct (r =? 0); try (apply stays_pure; reflexivity).
  apply stays_get. intros st0. destruct (read_server_handshake _ _ q) as [o q'].
  apply stays_bind; [apply stays_pure; reflexivity|]. intros ht.
  apply stays_bind; [apply stays_fst; intros s; repeat split|]. intros _. apply stays_bind; [apply stays_cb|]. intros _. apply IH.
Qed.

Lemma stays_decrypt rec : stays (decrypt_record C cb rec).
Proof.
  unfold decrypt_record. destruct rec as [m| | |h off data]; try apply stays_cb.
  apply stays_get. intros st0. cbv zeta.
  apply stays_bind; [apply stays_pure; reflexivity|]. intros nonce.
  destruct (decrypt_in_place _ _ _ _ _) as [o data1].
  apply stays_bind; [apply stays_pure; reflexivity|]. intros _.
  apply stays_bind.
  { apply stays_fst. intros s. unfold bind, get, lift, put, set_rng.
    destruct (off + length (cb_buf data1) <=? length (rd_buf s)) eqn:E; cbn [snd]; [|apply same_pos_refl].
    apply Nat.leb_le in E. repeat split. cbn [rd_buf]. apply splice_length. lia. }
  intros _. destruct (strip_content_type data1) as [o2 data2].
  apply stays_bind; [apply stays_pure; reflexivity|]. intros t.
  apply stays_bind; [apply stays_pure; reflexivity|]. intros inner.
  apply stays_bind.
  2:{ intros _. apply stays_fst. intros s. unfold rd_increment, bind, get, lift, put. destruct (increment_counter _); repeat split. }
  destruct t; try (apply stays_pure; reflexivity); try apply stays_cb; [|apply stays_loop].
  apply stays_bind; [apply stays_pure; reflexivity|]. intros ld. apply stays_cb.
Qed.
End Pos.

(** ** The reader after [open] *)

(** Between two records. *)
Definition between (s : rdst) : Prop := rd_wf s /\ rd_pending s = 0.

Lemma between_pos a b : same_pos a b -> between b -> between a.
Proof. intros (A1 & A2 & A3 & A4) [B1 B2]. unfold between, rd_wf in *. rewrite A1, A2, A4. auto. Qed.

Lemma between_read C s r s' : between s -> rd_read C s = (Ok r, s') -> between s'.
Proof.
  intros [Hw Hp] H. destruct (rd_read_any C s _ s' Hw H) as (Hw' & _ & _ & [[Hf _]|(h & f & Hc & _)]); [contradiction|].
  split; [exact Hw'|]. now apply Hc.
Qed.

Lemma between_ks s k : between (rd_with_ks s k) <-> between s. Proof. reflexivity. Qed.

Section Hs.
Context {V : Type} (C : crypto) (p : provider V) (cfg : tls_config).

Lemma pstep_between L s c h s' c' h' : pstep C p cfg L s c h s' c' h' ->
  between (cn_rd c) -> between (cn_rd c') /\ length (rd_buf (cn_rd c')) = length (rd_buf (cn_rd c)).
Proof.
  intros H Hb. destruct H as [c h k1 msg c' _ Hs|c h r1 exts secret dhe k2 Hrd _ _ _|c h rec r1 r2 s' h' Hrd Hd|c h ctx msg c' _ Hs|c h sg sc m si msg c' _ _ _ _ Hs|c h v msg c1 tr k3 _ Hs _ _].
  - destruct Hs as (_ & _ & -> & _). split; [exact Hb|reflexivity].
  - cbn [cn_rd]. split; [apply between_ks; eapply between_read; eauto|].
    destruct Hb as [Hw Hp]. now destruct (rd_read_any C _ _ r1 Hw Hrd) as (_ & E & _).
  - cbn [cn_rd]. pose proof (stays_decrypt C (server_verify_cb C p) rec (r1, (St_ServerVerify, h))) as Hst. rewrite Hd in Hst. cbn [fst snd] in Hst.
    split; [eapply between_pos; [exact Hst|]; eapply between_read; eauto|].
    destruct Hb as [Hw Hp]. destruct (rd_read_any C _ _ r1 Hw Hrd) as (_ & E & _). destruct Hst as (_ & _ & _ & ->). exact E.
  - destruct Hs as (_ & _ & -> & _). split; [exact Hb|reflexivity].
  - destruct Hs as (_ & _ & -> & _). split; [exact Hb|reflexivity].
  - destruct Hs as (_ & _ & E & _). unfold cn_with_keysched. cbn [cn_rd]. rewrite E. split; [exact Hb|reflexivity].
Qed.

Lemma hrun_between L s c h c' h' : hrun C p cfg L s c h c' h' -> between (cn_rd c) ->
  between (cn_rd c') /\ length (rd_buf (cn_rd c')) = length (rd_buf (cn_rd c)).
Proof.
  induction 1 as [c h|s c h s1 c1 h1 c2 h2 Hp Hr IH]; intros Hb; [auto|].
  destruct (pstep_between L _ _ _ _ _ _ Hp Hb) as [H1 E1]. destruct (IH H1) as [H2 E2]. split; [exact H2|congruence].
Qed.
End Hs.

Lemma established_recv C L c : crypto_ok C -> established C L c ->
  crinv C (stream (rd_rx (cn_rd c))) c /\ between (cn_rd c) /\ unread c = [] /\ cn_opened c = true /\ k_counter (rkey c) = 0%N.
Proof.
  intros HC He. destruct (established_facts C L c HC He) as (_ & _ & Hop & _ & Hdec & Hcnt & Hiv).
  destruct He as (V & p & cfg & v & rbuf & wbuf & rx & tx & c0 & _ & Hn & HL & Ho).
  destruct (cn_new_idle C _ _ _ _ _ Hn) as (Hid & _ & _ & _ & _ & Hrd & _). rewrite HL in Hid.
  destruct (open_ok C p cfg L v c0 tt c HC Hid Ho) as (v' & c1 & h' & _ & Hr & ->).
  destruct (hrun_between C p cfg L _ _ _ _ _ Hr) as [Hb _].
  { rewrite Hrd. split; [unfold rd_wf; cbn; lia|reflexivity]. }
  unfold set_opened, crinv, unread, rkey in *. cbn [cn_rd cn_dec cn_opened] in *.
  split; [|split; [exact Hb|]].
  - split; [apply Hb|]. split; [exact Hiv|]. split; [rewrite Hdec; split; cbn; lia|]. exists []. split; [reflexivity|].
    unfold pend. rewrite (proj2 Hb). constructor.
  - rewrite Hdec. auto.
Qed.

(** ** Whole histories *)

(** The calls that do not receive leave the receiving side alone. *)
Lemma other_step C c o r c' : receives o = false -> is_close o = false -> step C o c = (r, c') ->
  cn_rd c' = cn_rd c /\ cn_dec c' = cn_dec c /\ cn_opened c' = cn_opened c.
Proof.
  intros Hr Hc H.
  assert (G : forall A (m : M whalf tls_error A) (g : A -> value), (x <- on_wh m ;; ret (g x)) c = (r, c') ->
     cn_rd c' = cn_rd c /\ cn_dec c' = cn_dec c /\ cn_opened c' = cn_opened c).
  { intros A m g E. unfold bind, on_wh, ret in E. destruct (m (cn_wh c)) as [[a|e|x| |] w]; apply pair_equal_spec in E as [_ <-]; auto. }
  destruct o; try discriminate; cbn [step] in H.
  - unfold cn_write in H. exact (G _ (wh_write C (cn_opened c) b) VCount H).
  - exact (G _ (wh_flush C) (fun _ => VUnit) H).
  - exact (G _ _ (fun _ => VUnit) H).
Qed.

Lemma opens_app C W key iv : forall l1 n l2, opens C W key iv n l1 -> opens C W key iv (n + N.of_nat (length l1)) l2 -> opens C W key iv n (l1 ++ l2).
Proof.
  induction l1 as [|tc l1 IH]; intros n l2 H1 H2.
  - cbn [length N.of_nat] in H2. rewrite N.add_0_r in H2. exact H2.
  - inversion H1; subst. cbn [app]. econstructor; eauto. apply IH; [assumption|].
    cbn [length] in H2. replace (n + 1 + N.of_nat (length l1))%N with (n + N.of_nat (S (length l1)))%N by lia. exact H2.
Qed.

Lemma data_of_app a b : data_of (a ++ b) = data_of a ++ data_of b.
Proof. unfold data_of. now rewrite filter_app, map_app. Qed.

Theorem run_recv C W : crypto_ok C -> forall ops c rs c', crinv C W c -> run C ops c = (rs, c') ->
  exists l got q, opens C W (k_key (rkey c)) (k_iv (rkey c)) (k_counter (rkey c)) l /\ fifo (unread c) rs (data_of l) got q.
Proof.
  intros HC. induction ops as [|o ops IH]; intros c rs c' Hc H.
  - cbn in H. inversion H. subst. exists [], [], (unread c'). split; constructor.
  - destruct (step C o c) as [r c1] eqn:Es. rewrite (run_cons' C o ops c r c1 Es) in H.
    (* a call after which the history ends *)
    assert (Hlast : forall got1 q1, take o r (unread c) got1 q1 -> rs = [(o, r)] ->
        exists l got q, opens C W (k_key (rkey c)) (k_iv (rkey c)) (k_counter (rkey c)) l /\ fifo (unread c) rs (data_of l) got q).
    { intros got1 q1 Ht ->. exists [], (got1 ++ []), q1. split; [constructor|]. change (data_of []) with (@nil bytes ++ []).
      eapply ff_call; [auto| |constructor]. cbn [concat]. rewrite app_nil_r. exact Ht. }
    destruct (stops o r) eqn:Est.
    { apply pair_equal_spec in H as [<- _]. apply (Hlast [] (unread c)); [|reflexivity].
      destruct (receives o) eqn:Er; [|now apply tk_other]. apply tk_failed. intros v ->. destruct o; discriminate. }
    destruct (run C ops c1) as [rs1 c2] eqn:Er. cbn [fst snd] in H. apply pair_equal_spec in H as [<- <-].
    destruct (receives o) eqn:Erc.
    + destruct (recv_step C W c o r c1 HC Hc Erc Es) as (_ & _ & Hres).
      assert (G : exists l got, opens C W (k_key (rkey c)) (k_iv (rkey c)) (k_counter (rkey c)) l /\
        rkey c1 = kadv (rkey c) (N.of_nat (length l)) /\ crinv C W c1 /\
        (unread c <> [] -> l = []) /\ take o r (unread c ++ concat (data_of l)) got (unread c1)).
      { destruct r as [v|e|x| |]; try (destruct Hres as (l & g & R1 & R2 & R3 & R4 & R5 & R6 & R7); exists l, g; repeat (split; [assumption|]); split; [intros Hu; now apply R5|assumption]); try (now destruct o). }
      destruct G as (l1 & g1 & R1 & R2 & R3 & R4 & R5).
      destruct (IH c1 rs1 c2 R3 Er) as (l2 & g2 & q & L2 & F2). rewrite R2 in L2. cbn [kadv k_key k_iv k_counter] in L2.
      exists (l1 ++ l2), (g1 ++ g2), q. split; [now apply opens_app|]. rewrite data_of_app.
      eapply ff_call; eauto. intros Hu. now rewrite (R4 Hu).
    + assert (Hcl : is_close o = false) by (destruct o; try reflexivity; cbn in Est; destruct r; discriminate).
      destruct (other_step C c o r c1 Erc Hcl Es) as (E1 & E2 & E3).
      assert (Eu : unread c1 = unread c) by (unfold unread; rewrite E1, E2; reflexivity).
      assert (Ek : rkey c1 = rkey c) by (unfold rkey; rewrite E1; reflexivity).
      destruct (IH c1 rs1 c2) as (l2 & g2 & q & L2 & F2); [unfold crinv; rewrite E1, E2; exact Hc|exact Er|].
      rewrite Ek in L2. rewrite Eu in F2. exists l2, g2, q. split; [exact L2|].
      change (data_of l2) with ([] ++ data_of l2). change g2 with ([] ++ g2).
      eapply ff_call; [auto| |exact F2]. cbn [concat]. rewrite app_nil_r. now apply tk_other.
Qed.

(** What was taken is a prefix of what came in. *)
Lemma take_split o r q got q' : take o r q got q' -> q = got ++ q'.
Proof. destruct 1; try reflexivity; try (symmetry; apply firstn_skipn). assumption. Qed.

Lemma fifo_split q rs cs got q' : fifo q rs cs got q' -> q ++ concat cs = got ++ q'.
Proof.
  induction 1 as [q|q o r rs cs1 cs got1 q1 got q2 _ Ht _ IH].
  - cbn [concat app]. now rewrite app_nil_r.
  - apply take_split in Ht. rewrite concat_app, app_assoc, Ht, <- !app_assoc. now rewrite IH.
Qed.

(** ** Connections in use *)

Lemma run_keeps C W : crypto_ok C -> forall ops c, crinv C W c -> forallb (fun o => negb (is_close o)) ops = true ->
  Forall returned (fst (run C ops c)) ->
  let c' := snd (run C ops c) in
  crinv C W c' /\ read_key c' = read_key c /\ read_iv c' = read_iv c /\ room c' = room c.
Proof.
  intros HC. induction ops as [|o ops IH]; intros c Hc Hn Hp; [cbn; auto|].
  cbn [forallb] in Hn. apply andb_true_iff in Hn as [Hn1 Hn]. apply negb_true_iff in Hn1.
  destruct (step C o c) as [r c1] eqn:Es. rewrite (run_cons' C o ops c r c1 Es) in Hp |- *.
  assert (Hr : returned (o, r) -> crinv C W c1 /\ read_key c1 = read_key c /\ read_iv c1 = read_iv c /\ room c1 = room c).
  { intros Hx. destruct (receives o) eqn:Er.
    - destruct (recv_step C W c o r c1 HC Hc Er Es) as (_ & _ & Hres).
      assert (G : exists l : list (byte * bytes), rkey c1 = kadv (rkey c) (N.of_nat (length l)) /\ crinv C W c1 /\ length (rd_buf (cn_rd c1)) = length (rd_buf (cn_rd c))).
      { destruct r as [v|e|x| |]; try contradiction;
          destruct Hres as (l & g & R1 & R2 & R3 & R4 & _); exists l; auto. }
      destruct G as (l & G1 & G2 & G3). split; [exact G2|]. unfold read_key, read_iv, room. fold (rkey c1) (rkey c). rewrite G1. auto.
    - destruct (other_step C c o r c1 Er Hn1 Es) as (E1 & E2 & _). unfold crinv, read_key, read_iv, room. rewrite E1, E2. auto. }
  destruct (stops o r) eqn:Est; cbn [fst snd] in *.
  - apply Forall_cons_iff in Hp as [Hp _]. apply Hr. exact Hp.
  - apply Forall_cons_iff in Hp as [Hp1 Hp]. destruct (Hr Hp1) as (H1 & H2 & H3 & H4).
    destruct (IH c1 H1 Hn Hp) as (I1 & I2 & I3 & I4). split; [exact I1|]. rewrite I2, I3, I4. auto.
Qed.

Lemma in_use_recv C L c : crypto_ok C -> in_use C L c -> exists W, crinv C W c.
Proof.
  intros HC (c0 & ops & He & Hn & Hp & ->). destruct (established_recv C L c0 HC He) as (H1 & _).
  eexists. exact (proj1 (run_keeps C _ HC ops c0 H1 Hn Hp)).
Qed.

Lemma in_use_boundary C L c : crypto_ok C -> in_use C L c -> at_boundary c -> crinv C (incoming c) c.
Proof.
  intros HC Hu Hb. destruct (in_use_recv C L c HC Hu) as (W & H1 & H2 & H3 & _). split; [exact H1|]. split; [exact H2|]. split; [exact H3|].
  exists []. split; [reflexivity|]. unfold pend. rewrite Hb. constructor.
Qed.

Lemma established_in_use C L c : established C L c -> in_use C L c.
Proof. intros H. exists c, []. repeat split; [exact H|constructor]. Qed.

Lemma established_boundary C L c : crypto_ok C -> established C L c -> at_boundary c.
Proof. intros HC H. apply (established_recv C L c HC H). Qed.

Lemma returned_stops o r : is_close o = false -> returned (o, r) -> stops o r = false.
Proof. intros H1 H2. destruct o; try discriminate; destruct r; try contradiction; reflexivity. Qed.

Lemma in_use_step C L c o r c' : in_use C L c -> is_close o = false -> step C o c = (r, c') -> returned (o, r) -> in_use C L c'.
Proof.
  intros (c0 & ops & He & Hn & Hp & ->) Hc Hs Hr. exists c0, (ops ++ [o]). split; [exact He|].
  split; [rewrite forallb_app, Hn; cbn; now rewrite Hc|].
  destruct (run C ops c0) as [rs c1] eqn:E. cbn [fst snd] in *.
  assert (Hns : Forall (fun p => stops (fst p) (snd p) = false) rs).
  { assert (Ho : Forall (fun p => is_close (fst p) = false) rs).
    { clear - E Hn. revert c0 rs c1 E. induction ops as [|o1 ops IH]; intros c0 rs c1 E; [inversion E; constructor|].
      cbn [forallb] in Hn. apply andb_true_iff in Hn as [Hn1 Hn]. apply negb_true_iff in Hn1.
      destruct (step C o1 c0) as [r1 c2] eqn:Es. rewrite (run_cons' C o1 ops c0 r1 c2 Es) in E.
      destruct (stops o1 r1); [inversion E; repeat constructor; exact Hn1|].
      destruct (run C ops c2) as [rs2 c3] eqn:E2. inversion E. subst. constructor; [exact Hn1|]. eapply IH; eauto. }
    rewrite Forall_forall in *. intros [o1 r1] Hin. apply returned_stops; [exact (Ho _ Hin)|exact (Hp _ Hin)]. }
  rewrite (run_app C ops [o] c0 rs c1 E Hns).
  rewrite (run_cons' C o [] c1 r c' Hs), (returned_stops o r Hc Hr). cbn [fst snd run]. split; [|reflexivity].
  apply Forall_app. split; [exact Hp|]. constructor; [exact Hr|constructor].
Qed.
