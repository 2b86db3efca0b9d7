(** * C14, C15, C22, C25: what the receiving calls deliver *)
From Coq Require Import String List NArith Arith Bool Lia ZArith.
From Coq.Strings Require Import Byte.
From Coq Require Import ZifyBool ZifyNat ZifyN.
From Verif Require Import Base ParseBuffer Buffer Codes Extensions Crypto KeySchedule Config Handshake Record WriteBuffer
  Transport RecordReader ReadBuffer Connection Api BaseProofs ParseProofs SpecWire SpecCodes SpecMessages SpecKeys SpecRecord SpecRead
  KeyProofs RecordProofs SpecSend SendProofs SpecSession HsProofs ConnProofs FrameProofs DecryptProofs FlagProofs ReadProofs RecvProofs ServeProofs
  Toy ToyRun PropSession.
Import ListNotations.
Local Open Scope list_scope.

(** ** C14 *)

Lemma established_serving C L c srv tail : crypto_ok C -> established C L c -> steady c ->
  incoming c = server_wire C (read_key c) (read_iv c) 0 srv ++ tail ->
  Forall (served C (room c)) srv -> (N.of_nat (length srv) <= u64_max)%N -> serving C (incoming c) srv tail c.
Proof.
  intros HC He Hst Hin Hsrv Hlen. destruct (established_recv C L c HC He) as (H1 & (H2 & H2') & _ & H4 & H5).
  split; [exact H1|]. split; [split; [exact H2'|]; split; [|exact Hst]|]. { unfold rd_wf in H2. lia. }
  split; [exact H4|]. rewrite H5. split; [exact Hin|]. split; [exact Hsrv|lia].
Qed.

(** The server sends the records [srv] (data and tickets, with any padding), then its stream
    ends.  Whatever the transport's cut into reads and whatever calls the application makes:
    the results are those of a queue fed with the server's data in order; every receiving call
    succeeds or reports the end of the stream; and if one reports the end of the stream, every
    byte had been taken before. *)
Theorem C14_in_order : forall C L c srv ops, crypto_ok C -> established C L c -> steady c ->
  incoming c = server_wire C (read_key c) (read_iv c) 0 srv ->
  Forall (served C (room c)) srv -> (N.of_nat (length srv) <= u64_max)%N ->
  let rs := fst (run C ops c) in
  exists cs1 cs2 got q, data_of (map fst srv) = cs1 ++ cs2 /\ fifo [] rs cs1 got q /\
    Forall (fun p => receives (fst p) = true -> (exists v, snd p = Ok v) \/ snd p = Err IoError) rs /\
    (Exists (fun p => receives (fst p) = true /\ snd p = Err IoError) rs -> concat cs2 = [] /\ q = []).
Proof.
  intros C L c srv ops HC He Hst Hin Hsrv Hlen rs.
  pose proof (established_serving C L c srv [] HC He Hst ltac:(rewrite app_nil_r; exact Hin) Hsrv Hlen) as Hs.
  destruct (established_recv C L c HC He) as (_ & _ & Hu & _).
  destruct (run C ops c) as [rs0 c'] eqn:E. pose proof (serve_run_eof C _ HC ops srv c rs0 c' Hs E) as G.
  rewrite Hu in G. exact G.
Qed.

Lemma run_ops C (P : op -> Prop) : forall ops c, Forall P ops -> Forall P (map fst (fst (run C ops c))).
Proof.
  induction ops as [|o ops IH]; intros c Ho; [constructor|].
  apply Forall_cons_iff in Ho as [Ho1 Ho]. destruct (step C o c) as [r c1] eqn:Es. rewrite (run_cons' C o ops c r c1 Es).
  destruct (stops o r); cbn [fst map]; [repeat constructor; exact Ho1|]. constructor; [exact Ho1|]. now apply IH.
Qed.

(** Read by [read] alone: what comes out is a prefix of what was sent, and all of it once a
    call has reported the end of the stream. *)
Theorem C14_reads : forall C L c srv ops, crypto_ok C -> established C L c -> steady c ->
  incoming c = server_wire C (read_key c) (read_iv c) 0 srv ->
  Forall (served C (room c)) srv -> (N.of_nat (length srv) <= u64_max)%N -> only_reads ops ->
  let rs := fst (run C ops c) in
  let sent := concat (data_of (map fst srv)) in
  prefix (read_bytes rs) sent /\
  (Exists (fun p => receives (fst p) = true /\ snd p = Err IoError) rs -> read_bytes rs = sent).
Proof.
  intros C L c srv ops HC He Hst Hin Hsrv Hlen Ho rs sent.
  destruct (C14_in_order C L c srv ops HC He Hst Hin Hsrv Hlen) as (cs1 & cs2 & got & q & H1 & H2 & H3 & H4). fold rs in H2, H3, H4.
  assert (Hr : only_reads (map fst rs)).
  { now apply run_ops. }
  rewrite <- (fifo_reads _ _ _ _ _ H2 Hr). pose proof (fifo_split _ _ _ _ _ H2) as H5. cbn [app] in H5.
  assert (Es : sent = got ++ q ++ concat cs2) by (unfold sent; rewrite H1, concat_app, H5; symmetry; apply app_assoc).
  split; [now exists (q ++ concat cs2)|]. intros HE. destruct (H4 HE) as [E1 ->]. rewrite E1, app_nil_r in Es. now symmetry.
Qed.

Lemma count_reads C : forall ops c q cs got q', let rs := fst (run C ops c) in
  Forall (fun o => exists dst, o = OpRead dst /\ dst <> []) ops ->
  Forall (fun p => receives (fst p) = true -> (exists v, snd p = Ok v) \/ snd p = Err IoError) rs ->
  fifo q rs cs got q' ->
  Exists (fun p => receives (fst p) = true /\ snd p = Err IoError) rs \/ length ops <= length got.
Proof.
  induction ops as [|o ops IH]; intros c q cs got q' rs Ho Hrs Hf; [right; cbn; lia|].
  apply Forall_cons_iff in Ho as [(dst & -> & Hd) Ho]. unfold rs in *. clear rs.
  destruct (step C (OpRead dst) c) as [r c1] eqn:Es. rewrite (run_cons' C (OpRead dst) ops c r c1 Es) in *.
  destruct (stops (OpRead dst) r) eqn:Est.
  { cbn [fst] in Hrs. apply Forall_cons_iff in Hrs as [Hr _]. cbn [fst snd] in Hr.
    destruct (Hr eq_refl) as [[v ->] | ->]; discriminate. }
  cbn [fst] in *. apply Forall_cons_iff in Hrs as [Hr Hrs]. cbn [fst snd] in Hr.
  inversion Hf as [|q0 o0 r0 rs0 cs1 cs0 got1 q1 got0 q2 Hne Ht Hff]; subst.
  destruct (Hr eq_refl) as [[v ->] | ->].
  2:{ left. constructor. auto. }
  destruct (IH c1 q1 cs0 got0 q' Ho Hrs Hff) as [HE|HE]; [left; now constructor|]. right.
  rewrite app_length. cbn [length]. inversion Ht; subst; try congruence.
  + rewrite firstn_length. destruct dst; [contradiction|]. destruct (q ++ concat cs1); [contradiction|]. cbn [length] in *. lia.
  + discriminate.
Qed.

(** Progress: more calls of [read] (each with a non-empty buffer) than there are bytes, and all
    of them have been read. *)
Theorem C14_complete : forall C L c srv ops, crypto_ok C -> established C L c -> steady c ->
  incoming c = server_wire C (read_key c) (read_iv c) 0 srv ->
  Forall (served C (room c)) srv -> (N.of_nat (length srv) <= u64_max)%N ->
  Forall (fun o => exists dst, o = OpRead dst /\ dst <> []) ops ->
  length (concat (data_of (map fst srv))) < length ops ->
  read_bytes (fst (run C ops c)) = concat (data_of (map fst srv)).
Proof.
  intros C L c srv ops HC He Hst Hin Hsrv Hlen Ho Hn.
  assert (Hor : only_reads ops) by (eapply Forall_impl; [|exact Ho]; cbn; intros o (d & -> & _) _; eauto).
  destruct (C14_in_order C L c srv ops HC He Hst Hin Hsrv Hlen) as (cs1 & cs2 & got & q & H1 & H2 & H3 & H4).
  destruct (C14_reads C L c srv ops HC He Hst Hin Hsrv Hlen Hor) as [_ H5]. apply H5.
  destruct (count_reads C ops c [] cs1 got q Ho H3 H2) as [HE|HE]; [exact HE|]. exfalso.
  apply fifo_split in H2. cbn [app] in H2. rewrite H1, concat_app, H2, !app_length in Hn. lia.
Qed.

(** ** C15 *)

(** Whatever the network delivers: what the application gets is taken, in order, from the
    contents of received records that open under the read key with the numbers 0, 1, 2, ... *)
Theorem C15_only_authentic : forall C L c ops, crypto_ok C -> established C L c ->
  exists l got q, opens C (incoming c) (read_key c) (read_iv c) 0 l /\
    fifo [] (fst (run C ops c)) (data_of l) got q /\ prefix got (concat (data_of l)).
Proof.
  intros C L c ops HC He. destruct (established_recv C L c HC He) as (H1 & _ & H3 & _ & H5).
  destruct (run C ops c) as [rs c'] eqn:E. destruct (run_recv C _ HC ops c rs c' H1 E) as (l & got & q & H6 & H7).
  rewrite H5 in H6. rewrite H3 in H7. exists l, got, q. split; [exact H6|]. split; [exact H7|].
  apply fifo_split in H7. cbn [app] in H7. now exists q.
Qed.

(** Hence: unless some record that the server did not send opens under the read key, the
    application gets a prefix of what the server sent. *)
Definition forgery (C : crypto) (w key iv : bytes) (srv : list sent_record) : Prop :=
  exists n h f inner, framed h f /\ received_in w h f /\ rfc_open C key iv n h f = Some inner /\
    server_record_no C key iv srv n <> Some (h ++ f).

Lemma opens_prefix C w key iv srv : crypto_ok C -> Forall (fun r : sent_record => fst (fst r) <> x00) srv ->
  forall l n, opens C w key iv n l ->
  (exists rest, map fst (skipn (N.to_nat n) srv) = l ++ rest) \/ forgery C w key iv srv.
Proof.
  intros HC Hty l. induction l as [|tc l IH]; intros n Ho; [left; eexists; reflexivity|].
  inversion Ho as [|n0 h f inner t c l0 Hfr Hrec Hopen Hun Hrest]; subst.
  destruct (IH _ Hrest) as [(rest & E)|HF]; [|now right].
  assert (Hdec : {server_record_no C key iv srv n = Some (h ++ f)} + {server_record_no C key iv srv n <> Some (h ++ f)}).
  { decide equality. apply list_eq_dec. apply Byte.byte_eq_dec. }
  destruct Hdec as [Heq|Hne]; [|right; exists n, h, f, inner; auto]. left. exists rest.
  unfold server_record_no in Heq. destruct (nth_error srv (N.to_nat n)) as [[[t' c'] pad]|] eqn:En; [|discriminate].
  assert (Hs : skipn (N.to_nat n) srv = ((t', c'), pad) :: skipn (N.to_nat (n + 1)) srv).
  { replace (N.to_nat (n + 1)) with (S (N.to_nat n)) by lia. clear - En. revert En. generalize (N.to_nat n) as m. intros m. revert srv.
    induction m as [|m IHm]; intros srv En; destruct srv as [|r srv]; try discriminate; [inversion En; reflexivity|]. cbn [skipn]. now rewrite (IHm srv En). }
  rewrite Hs. cbn [map fst app]. rewrite E. f_equal.
  destruct (rfc_record_parts C key iv n t' c' pad HC) as (f' & E' & Hf' & Ho').
  assert (Heq' : h ++ f = rfc_header (length c' + 1 + pad + 16) ++ f') by congruence.
  apply app_len_inj in Heq' as [-> ->]; [|rewrite rfc_header_length; apply Hfr].
  rewrite Ho' in Hopen. inversion Hopen. subst inner. rewrite unpad_inner in Hun; [now inversion Hun|].
  rewrite Forall_forall in Hty. exact (Hty _ (nth_error_In _ _ En)).
Qed.

Theorem C15_prefix_or_forgery : forall C L c srv ops, crypto_ok C -> established C L c ->
  Forall (fun r : sent_record => fst (fst r) <> x00) srv ->
  (exists cs got q, fifo [] (fst (run C ops c)) cs got q /\ prefix got (concat (data_of (map fst srv)))) \/
  forgery C (incoming c) (read_key c) (read_iv c) srv.
Proof.
  intros C L c srv ops HC He Hty.
  destruct (C15_only_authentic C L c ops HC He) as (l & got & q & H1 & H2 & (z & H3)).
  destruct (opens_prefix C _ _ _ srv HC Hty l 0%N H1) as [(rest & E)|HF]; [left|now right].
  exists (data_of l), got, q. split; [exact H2|]. cbn [N.to_nat skipn] in E. rewrite E, data_of_app, concat_app, H3.
  exists (z ++ concat (data_of rest)). now rewrite app_assoc.
Qed.

(** ** C22 *)

(** The bytes popped, among the slices that the calls on a handle returned. *)
Fixpoint popped (ops : list rb_op) (vs : list bytes) : bytes :=
  match ops, vs with
  | (RbPop _ | RbPopAll | RbPopInto _) :: ops', v :: vs' => v ++ popped ops' vs'
  | _ :: ops', _ :: vs' => popped ops' vs'
  | _, _ => []
  end.

(** The specification [handle] is first-in first-out. *)
Lemma handle_fifo : forall ops q, q = popped ops (fst (handle ops q)) ++ snd (handle ops q).
Proof.
  induction ops as [|o ops IH]; intros q; [reflexivity|].
  rewrite handle_cons. cbn [fst snd]. specialize (IH (snd (hstep o q))).
  destruct o; cbn [hstep fst snd popped] in *; try exact IH.
  - rewrite <- app_assoc, <- IH. symmetry. apply firstn_skipn.
  - rewrite <- app_assoc, <- IH. symmetry. apply app_nil_r.
  - rewrite <- app_assoc, <- IH. symmetry. apply firstn_skipn.
Qed.

Lemma no_session_step C c o : cn_opened c = false -> waits o = true -> step C o c = (Err MissingHandshake, c).
Proof.
  intros Hs Ho. destruct c as [rd dec wh sh op]. cbn [cn_opened] in Hs. subst op.
  destruct o; try discriminate; cbn [step].
  - destruct dst; [discriminate|]. reflexivity.
  - reflexivity.
  - reflexivity.
Qed.

Lemma fill_ok C W c q c1 : crypto_ok C -> crinv C W c -> step C OpFillBuf c = (Ok (VBytes q), c1) ->
  crinv C W c1 /\ cn_opened c1 = true /\ unread c1 = q /\ q <> [].
Proof.
  intros HC Hc H. destruct (cn_opened c) eqn:Eo; [|rewrite (no_session_step C c OpFillBuf Eo eq_refl) in H; discriminate].
  destruct (recv_step C W c OpFillBuf _ c1 HC Hc eq_refl H) as (_ & _ & l & g & _ & _ & R3 & _ & _ & R6 & R7).
  split; [exact R3|]. split; [destruct R7 as [->|(_ & E & _)]; [exact Eo|discriminate]|].
  inversion R6; subst; [auto| |discriminate]. exfalso. match goal with H : forall v, _ |- _ => now apply (H (VBytes q)) end.
Qed.

(** At any time [len] and [is_empty] report what is left in front of the handle, and [pop_into]
    fills the front of any destination with it and leaves the rest of the destination alone. *)
Theorem C22_len : forall q ops, exists r, rb_run ops (rb_new q) = Ok (fst (handle ops q), r) /\
  let left := snd (handle ops q) in
  rb_len r = Ok (length left) /\ (exists b, rb_is_empty r = Ok b /\ (b = true <-> left = [])) /\
  forall dst, exists r', let n := Nat.min (length dst) (length left) in
    rb_pop_into dst r = Ok (firstn n left ++ skipn n dst, n, r') /\ rb_len r' = Ok (length left - n).
Proof.
  intros q ops. destruct (rb_run_spec q ops 0 false (Nat.le_0_l _)) as (n & E & Hn & El). cbn [skipn] in E, El.
  eexists. split; [exact E|]. cbv zeta. rewrite El, skipn_length. split; [apply rb_len_ok; lia|]. split.
  - eexists. split; [unfold rb_is_empty; rewrite rb_len_ok by lia; cbn [obind]; reflexivity|].
    rewrite Nat.eqb_eq. split; intros H.
    + apply length_zero_iff_nil. rewrite skipn_length. exact H.
    + apply (f_equal (@length _)) in H. rewrite skipn_length in H. exact H.
  - intros dst. rewrite pop_into_spec by lia. eexists. split; [reflexivity|]. rewrite rb_len_ok by lia. f_equal. lia.
Qed.

(** The application looks at the data in front ([fill_buf] shows [q]), takes a handle, makes
    any calls on it, then drops or reverts it: the calls return exactly what the queue
    specification says, nothing is read from the network, and the next calls see exactly what
    the specification says is left. *)
Theorem C22_handle : forall C L c q c1 ops fin, crypto_ok C -> in_use C L c ->
  step C OpFillBuf c = (Ok (VBytes q), c1) ->
  exists c2, step C (OpReadBuffered ops fin) c1 = (Ok (VSlices (fst (handle ops q))), c2) /\
    cn_rd c2 = cn_rd c1 /\ cn_wh c2 = cn_wh c1 /\
    let left := handle_left ops fin q in
    (left <> [] -> fst (step C OpFillBuf c2) = Ok (VBytes left)) /\
    (left <> [] -> forall dst, dst <> [] -> let n := Nat.min (length dst) (length left) in
       fst (step C (OpRead dst) c2) = Ok (VRead n (firstn n left ++ skipn n dst))) /\
    (left = [] -> incoming c2 = [] -> at_boundary c2 -> forall v, fst (step C OpFillBuf c2) <> Ok v).
Proof.
  intros C L c q c1 ops fin HC Hin H. destruct (in_use_recv C L c HC Hin) as (W & Hc).
  destruct (fill_ok C W c q c1 HC Hc H) as (H1 & H2 & H3 & H4).
  assert (Hnext : forall o cc r cc', crinv C W cc -> cn_opened cc = true -> unread cc <> [] -> receives o = true -> step C o cc = (r, cc') ->
     (exists v, r = Ok v) /\ cn_rd cc' = cn_rd cc /\ cn_wh cc' = cn_wh cc /\ crinv C W cc' /\ cn_opened cc' = true /\
     exists got, take o r (unread cc) got (unread cc')).
  { intros o cc r cc' Hcc Hop Hu Ho Hst. destruct (recv_step C W cc o r cc' HC Hcc Ho Hst) as (Hw & _ & Hres).
    assert (G : exists l g, (unread cc <> [] -> l = [] /\ cn_rd cc' = cn_rd cc /\ (cn_opened cc = true -> exists v, r = Ok v)) /\ crinv C W cc' /\
        take o r (unread cc ++ concat (data_of l)) g (unread cc') /\
        (cn_opened cc' = cn_opened cc \/ cn_opened cc' = false /\ r = Err ConnectionClosed /\ ended C W (rkey cc) l)).
    { destruct r as [v|e|x| |]; try contradiction; try (destruct Hres as (l & g & _ & _ & R3 & _ & R5 & R6 & R7); exists l, g; tauto).
      destruct Hres as [Hres _]. congruence. }
    destruct G as (l & g & G1 & G2 & G3 & G4). destruct (G1 Hu) as (-> & E1 & E2). destruct (E2 Hop) as [v Ev].
    rewrite app_nil_r in G3. split; [eauto|]. repeat (split; [assumption|]). split; [|eauto].
    destruct G4 as [G4|(_ & G4 & _)]; congruence. }
  destruct (step C (OpReadBuffered ops fin) c1) as [r c2] eqn:E2. exists c2.
  destruct (Hnext (OpReadBuffered ops fin) c1 r c2 H1 H2 ltac:(rewrite H3; exact H4) eq_refl E2) as ((v & Hv) & K1 & K2 & K3 & K4 & got & K5).
  rewrite H3 in K5.
  assert (G : r = Ok (VSlices (fst (handle ops q))) /\ unread c2 = handle_left ops fin q).
  { inversion K5; subst; auto; [exfalso; match goal with H : forall v, _ |- _ => now apply (H v) end|discriminate]. }
  destruct G as [-> G]. split; [reflexivity|]. split; [exact K1|]. split; [exact K2|]. cbv zeta. rewrite <- G.
  split; [|split].
  - intros Hl. destruct (step C OpFillBuf c2) as [r3 c3] eqn:E3.
    destruct (Hnext OpFillBuf c2 r3 c3 K3 K4 Hl eq_refl E3) as ((v3 & ->) & _ & _ & _ & _ & g3 & T3). cbn [fst].
    inversion T3; subst; [reflexivity|exfalso; match goal with H : forall v, _ |- _ => now apply (H v3) end|discriminate].
  - intros Hl dst Hd. destruct (step C (OpRead dst) c2) as [r3 c3] eqn:E3.
    destruct (Hnext (OpRead dst) c2 r3 c3 K3 K4 Hl eq_refl E3) as ((v3 & ->) & _ & _ & _ & _ & g3 & T3). cbn [fst].
    inversion T3; subst; [contradiction|reflexivity|exfalso; match goal with H : forall v, _ |- _ => now apply (H v3) end|discriminate].
  - intros Hl Hi Hb v3 E3. destruct (step C OpFillBuf c2) as [r3 c3] eqn:E4. cbn [fst] in E3. subst r3.
    assert (Hc2 : crinv C [] c2).
    { destruct K3 as (A1 & A2 & A3 & _). split; [exact A1|]. split; [exact A2|]. split; [exact A3|].
      exists []. unfold incoming in Hi. rewrite Hi. split; [reflexivity|]. unfold pend. rewrite Hb. constructor. }
    destruct (recv_step C [] c2 OpFillBuf (Ok v3) c3 HC Hc2 eq_refl E4) as (_ & _ & l & g & R1 & _ & _ & _ & _ & R6 & _).
    inversion R1 as [|n h f inner t cc l0 Hfr (pre & x & post & old & Hw & _) Hopen Hun Hrest]; subst.
    + rewrite Hl in R6. cbn in R6. inversion R6; subst; [congruence|exfalso; match goal with H : forall v, _ |- _ => now apply (H v3) end|discriminate].
    + destruct Hfr as [Hfr _]. apply (f_equal (@length byte)) in Hw. rewrite !app_length in Hw. cbn [length] in Hw. lia.
Qed.

(** ** C25 *)

Lemma closed_run C W : crypto_ok C -> forall ops c rs c', crinv C W c -> cn_opened c = false -> run C ops c = (rs, c') ->
  Forall (fun p => moves_data (fst p) = true -> snd p = Err MissingHandshake) rs.
Proof.
  intros HC. induction ops as [|o ops IH]; intros c rs c' Hc Ho H; [inversion H; constructor|].
  destruct (step C o c) as [r c1] eqn:Es. rewrite (run_cons' C o ops c r c1 Es) in H.
  assert (Hm : moves_data o = true -> r = Err MissingHandshake /\ c1 = c).
  { intros Hm. assert (E : step C o c = (Err MissingHandshake, c)).
    { destruct c as [rd dec wh sh op]. cbn [cn_opened] in Ho. subst op. destruct o; try discriminate; cbn [step].
      - destruct wh as [wb ks tx pol]. reflexivity.
      - cbn [moves_data] in Hm. unfold rh_read. destruct (length dst =? 0); [discriminate|]. reflexivity.
      - reflexivity.
      - reflexivity. }
    rewrite E in Es. apply pair_equal_spec in Es as [<- <-]. auto. }
  destruct (stops o r) eqn:Est.
  - apply pair_equal_spec in H as [<- _]. constructor; [cbn [fst snd]; intros E; now apply Hm|constructor].
  - destruct (run C ops c1) as [rs1 c2] eqn:Er. cbn [fst snd] in H. apply pair_equal_spec in H as [<- <-].
    constructor; [cbn [fst snd]; intros E; now apply Hm|]. apply (IH c1 rs1 c2); [| |exact Er].
    + destruct (receives o) eqn:Erc.
      * destruct (recv_step C W c o r c1 HC Hc Erc Es) as (_ & _ & Hres).
        destruct r as [v|e|x| |]; try contradiction; try (destruct Hres as (l & g & _ & _ & R3 & _); exact R3).
        destruct o; discriminate.
      * assert (Hcl : is_close o = false) by (destruct o; try reflexivity; cbn in Est; destruct r; discriminate).
        destruct (other_step C c o r c1 Erc Hcl Es) as (E1 & E2 & _). unfold crinv. rewrite E1, E2. exact Hc.
    + destruct (step_flag _ _ _ _ _ Es) as [[_ E]|[_ E]]; [exact E|congruence].
Qed.

(** The server sends the records [srv], then close_notify (with any padding), then anything.
    Whatever the application calls, up to the first receiving call that fails the results are
    those of a queue fed with the server's data; that call reports [ConnectionClosed], all data
    having been taken before; and from then on the session is closed. *)
Theorem C25_close_after_data : forall C L c srv lvl pad rest ops, crypto_ok C -> established C L c -> steady c ->
  incoming c = server_wire C (read_key c) (read_iv c) 0 srv ++
    rfc_record C (read_key c) (read_iv c) (N.of_nat (length srv)) ty_alert [lvl; x00] pad ++ rest ->
  Forall (served C (room c)) srv -> (N.of_nat (length srv) < u64_max)%N ->
  lvl = x01 \/ lvl = x02 -> 3 + pad + tag_len C <= room c -> (N.of_nat (3 + pad + tag_len C) < 65536)%N ->
  let rs := fst (run C ops c) in
  let all_ok := Forall (fun p => receives (fst p) = true -> exists v, snd p = Ok v) in
  (all_ok rs /\ exists cs1 cs2 got q, data_of (map fst srv) = cs1 ++ cs2 /\ fifo [] rs cs1 got q) \/
  exists pre o post cs got, rs = pre ++ (o, Err ConnectionClosed) :: post /\ all_ok pre /\
    fifo [] pre cs got [] /\ got = concat (data_of (map fst srv)) /\
    Forall (fun p => moves_data (fst p) = true -> snd p = Err MissingHandshake) post.
Proof.
  intros C L c srv lvl pad rest ops HC He Hst Hin Hsrv Hlen Hlvl Hroom Hsz rs all_ok.
  pose proof (established_serving C L c srv _ HC He Hst Hin Hsrv ltac:(lia)) as Hs.
  destruct (established_recv C L c HC He) as (_ & _ & Hu & _ & Hcnt).
  destruct (run C ops c) as [rs0 c'] eqn:E. unfold rs. cbn [fst].
  destruct (serve_run C _ _ HC ops srv c rs0 c' Hs E) as [G|(pre & o & r & post & cs1 & cs2 & got & G1 & G2 & G3 & G4 & G5 & srv2 & c0 & c1 & ops2 & J1 & J2 & J3 & J4 & J5 & J6 & J7)].
  { left. rewrite Hu in G. exact G. }
  right. rewrite Hu in G5. destruct J4 as (M2 & M3 & M4 & M1).
  assert (Hn : (k_counter (rkey c0) + N.of_nat (length srv2) = N.of_nat (length srv))%N) by (rewrite Hcnt in M1; lia).
  destruct (serve_close C (incoming c) srv2 c0 o r c1 lvl pad rest HC) as (K1 & K2 & K3 & K4); auto.
  - rewrite Hn, M2, M3. exact J1.
  - rewrite M4. exact Hroom.
  - lia.
  - subst r. exists pre, o, post, cs1, got. split; [exact G1|]. split; [exact G2|]. split; [exact G5|]. split.
    + apply fifo_split in G5. cbn [app] in G5. rewrite app_nil_r in G5. rewrite G3, concat_app, G4, app_nil_r. now symmetry.
    + destruct J7 as [[_ ->]|[_ J7]]; [constructor|]. exact (closed_run C _ HC ops2 c1 post c' K3 K2 J7).
Qed.

(** A receiving call reports [ConnectionClosed] only at a close_notify alert it has received:
    in a record with the next number under the read key, or - this is the flaw, see
    [C25_refuted] - in the clear. *)
Theorem C25_closed_by_alert_partial : forall C L c ops o, crypto_ok C -> established C L c ->
  In (o, Err ConnectionClosed) (fst (run C ops c)) -> receives o = true ->
  exists l h f, opens C (incoming c) (read_key c) (read_iv c) 0 l /\ framed h f /\ received_in (incoming c) h f /\
    (plain_close h f \/ authentic_close C (read_key c) (read_iv c) (N.of_nat (length l)) h f).
Proof.
  intros C L c ops o HC He Hin Ho. destruct (established_recv C L c HC He) as (H1 & _ & _ & _ & H5).
  assert (G : forall W ops c, crinv C W c -> In (o, Err ConnectionClosed) (fst (run C ops c)) ->
     exists l h f, opens C W (read_key c) (read_iv c) (next_seq c) l /\ framed h f /\ received_in W h f /\
       (plain_close h f \/ authentic_close C (read_key c) (read_iv c) (next_seq c + N.of_nat (length l)) h f)).
  { clear - HC Ho. intros W. induction ops as [|o1 ops IH]; intros c Hc Hin; [contradiction|].
    destruct (step C o1 c) as [r c1] eqn:Es. rewrite (run_cons' C o1 ops c r c1 Es) in Hin.
    assert (Hhere : (o1, r) = (o, Err ConnectionClosed) -> exists l h f, opens C W (read_key c) (read_iv c) (next_seq c) l /\ framed h f /\ received_in W h f /\
       (plain_close h f \/ authentic_close C (read_key c) (read_iv c) (next_seq c + N.of_nat (length l)) h f)).
    { intros E. apply pair_equal_spec in E as [-> ->].
      destruct (waits o) eqn:Ew; [|destruct (step_nowait C W c o _ c1 Hc Ho Ew Es) as ((v & E) & _); discriminate].
      destruct (cn_opened c) eqn:Eo; [|rewrite (no_session_step C c o Eo Ew) in Es; discriminate].
      destruct (recv_step C W c o _ c1 HC Hc Ho Es) as (_ & _ & l & g & R1 & _ & _ & _ & _ & _ & R7).
      destruct (step_flag _ _ _ _ _ Es) as [[_ Ef]|[Ef _]]; [|contradiction].
      destruct R7 as [R7|(_ & _ & h & f & R7 & R8 & R9)]; [congruence|]. exists l, h, f. auto. }
    destruct (stops o1 r) eqn:Est; cbn [fst] in Hin; [destruct Hin as [E|[]]; now apply Hhere|].
    destruct Hin as [E|Hin]; [now apply Hhere|]. destruct (receives o1) eqn:Er.
    - destruct (recv_step C W c o1 r c1 HC Hc Er Es) as (_ & _ & Hres).
      assert (G : exists l, opens C W (k_key (rkey c)) (k_iv (rkey c)) (k_counter (rkey c)) l /\ rkey c1 = kadv (rkey c) (N.of_nat (length l)) /\ crinv C W c1).
      { destruct r as [v|e|x| |]; try contradiction; try (destruct Hres as (l & g & R1 & R2 & R3 & _); exists l; auto). destruct o1; discriminate. }
      destruct G as (l1 & G1 & G2 & G3). destruct (IH c1 G3 Hin) as (l & h & f & I1 & I2 & I3 & I4).
      unfold read_key, read_iv, next_seq in *. fold (rkey c1) (rkey c) in *. rewrite G2 in *. cbn [kadv k_key k_iv k_counter] in *.
      exists (l1 ++ l), h, f. split; [now apply opens_app|]. split; [exact I2|]. split; [exact I3|].
      rewrite app_length, Nat2N.inj_add, N.add_assoc. exact I4.
    - assert (Hcl : is_close o1 = false) by (destruct o1; try reflexivity; cbn in Est; destruct r; discriminate).
      destruct (other_step C c o1 r c1 Er Hcl Es) as (E1 & E2 & _).
      destruct (IH c1) as (l & h & f & I); [unfold crinv; rewrite E1, E2; exact Hc|exact Hin|].
      unfold read_key, read_iv, next_seq in *. rewrite E1 in I. exists l, h, f. exact I. }
  destruct (G (incoming c) ops c H1 Hin) as (l & h & f & I). unfold next_seq in I. fold (rkey c) in I. rewrite H5 in I.
  exists l, h, f. exact I.
Qed.

(** The flaw: two bytes anybody on the network can send close the session.  The stream holds
    one alert record in the clear and nothing else; the connection is then closed for writing,
    too. *)
Theorem C25_refuted : exists c, opened_conn 400 300 [RxData [x15; x03; x03; x00; x02; x01; x00]] silent = Ok (Ok tt, c) /\
  map snd (fst (run toy [OpWrite [x41]; OpRead (zeros 4); OpWrite [x41]; OpRead (zeros 4)] c)) =
    [Ok (VCount 1); Err ConnectionClosed; Err MissingHandshake; Err MissingHandshake] /\
  ~ exists n h f, framed h f /\ received_in (incoming c) h f /\ authentic_close toy (read_key c) (read_iv c) n h f.
Proof.
  set (c0 := toy_conn [RxData [x15; x03; x03; x00; x02; x01; x00]]).
  exists c0. split; [apply toy_conn_opened|]. split; [vm_compute; reflexivity|].
  assert (Hi : incoming c0 = [x15; x03; x03; x00; x02; x01; x00]) by (vm_compute; reflexivity).
  intros (n & h & f & (Hh & Hf) & (pre & x & post & old & Hw & -> & Hss) & (inner & ct & Ho & _)).
  apply (rfc_open_length toy _ _ _ _ _ _ toy_ok) in Ho. rewrite Hi in Hw. apply (f_equal (@length byte)) in Hw.
  rewrite !app_length in Hw. rewrite Hh in Hw. cbn [length] in Hw.
  assert (length old <= length pre) by (clear - Hss; induction Hss; cbn [length]; lia).
  rewrite (ok_tag_len toy toy_ok), app_length in Ho. lia.
Qed.

(** ** The hypotheses are met *)

Definition a_ticket : bytes := message (F_NewSessionTicket 7200 1 [x00] [xaa; xbb]) [(42%N, [x00; x00; x10; x00])].
Lemma a_ticket_ok : is_nst a_ticket.
Proof.
  exists 7200%N, 1%N, [x00], [xaa; xbb], [(42%N, [x00; x00; x10; x00])]. split; [reflexivity|].
  split; [repeat split; cbn; lia|]. split; [repeat split; repeat constructor; cbn; try lia|]. split; [repeat constructor|cbn; lia].
Qed.

(** The toy server sends "hi" with three bytes of padding, two tickets, an empty record, "!". *)
Definition some_records : list sent_record :=
  [((ty_data, [x68; x69]), 3); ((ty_handshake, a_ticket ++ a_ticket), 0); ((ty_data, []), 1); ((ty_data, [x21]), 0)].
Definition their_wire : bytes := Eval vm_compute in
  toy_data 0 ty_data [x68; x69] 3 ++ toy_data 1 ty_handshake (a_ticket ++ a_ticket) 0 ++ toy_data 2 ty_data [] 1 ++ toy_data 3 ty_data [x21] 0.
Definition their_close : bytes := Eval vm_compute in toy_data 4 ty_alert [x01; x00] 2.

(** It arrives byte by byte. *)
Definition trickle (b : bytes) : list rx_event := map (fun x => RxData [x]) b.
Definition conn_in (w : bytes) : conn := toy_conn (trickle w).

Lemma conn_in_established w : established toy 300 (conn_in w).
Proof. apply toy_conn_established. Qed.
Lemma conn_in_rx w : rd_rx (cn_rd (conn_in w)) = trickle w.
Proof. reflexivity. Qed.

Lemma trickle_chunked w : chunked (trickle w).
Proof. unfold trickle, chunked. apply Forall_map. apply Forall_forall. intros x _. eexists. split; [reflexivity|discriminate]. Qed.

Lemma some_records_served : Forall (served toy 400) some_records.
Proof.
  assert (G : forall t c pad, (t = ty_data \/ t = ty_handshake /\ exists ms, c = concat ms /\ Forall is_nst ms) ->
     length c + 1 + pad + 16 <= 400 -> served toy 400 ((t, c), pad)).
  { intros t c pad H1 H2. split; [exact H1|]. rewrite (ok_tag_len toy toy_ok). lia. }
  unfold some_records. constructor; [apply G; [now left|cbn; lia]|]. constructor.
  { apply G; [right; split; [reflexivity|]; exists [a_ticket; a_ticket]; split; [reflexivity|]|vm_compute; lia].
    constructor; [exact a_ticket_ok|]. constructor; [exact a_ticket_ok|constructor]. }
  constructor; [apply G; [now left|cbn; lia]|]. constructor; [apply G; [now left|cbn; lia]|constructor].
Qed.

Definition ten_ops : list op :=
  [OpFillBuf; OpReadBuffered [RbPeek 1; RbPop 1; RbPeekAll] RbRevert; OpReadBuffered [RbPop 1] RbDrop; OpRead (zeros 0); OpRead (zeros 5); OpWrite [x41]; OpRead (zeros 5); OpConsume 3; OpRead (zeros 5); OpRead (zeros 5)].

Example C14_case : let c := conn_in their_wire in
  established toy 300 c /\ steady c /\ room c = 400 /\
  incoming c = server_wire toy (read_key c) (read_iv c) 0 some_records /\ Forall (served toy (room c)) some_records /\
  map snd (fst (run toy ten_ops c)) =
    [Ok (VBytes [x68; x69]); Ok (VSlices [[x68]; [x68]; [x69]]); Ok (VSlices [[x68]]); Ok (VRead 0 []); Ok (VRead 1 [x69; x00; x00; x00; x00]);
     Ok (VCount 1); Ok (VRead 1 [x21; x00; x00; x00; x00]); Ok VUnit; Err IoError; Err IoError].
Proof.
  intros c. split; [apply conn_in_established|]. split; [apply trickle_chunked|].
  split; [vm_compute; reflexivity|]. split; [vm_compute; reflexivity|].
  split; [assert (Er : room c = 400) by (vm_compute; reflexivity); rewrite Er; exact some_records_served|]. vm_compute. reflexivity.
Qed.

Example C25_case : let c := conn_in (their_wire ++ their_close ++ [xde; xad]) in
  established toy 300 c /\ steady c /\ room c = 400 /\
  incoming c = server_wire toy (read_key c) (read_iv c) 0 some_records ++
    rfc_record toy (read_key c) (read_iv c) (N.of_nat (length some_records)) ty_alert [x01; x00] 2 ++ [xde; xad] /\
  map snd (fst (run toy [OpRead (zeros 2); OpRead (zeros 2); OpRead (zeros 2); OpRead (zeros 2); OpWrite [x00]] c)) =
    [Ok (VRead 2 [x68; x69]); Ok (VRead 1 [x21; x00]); Err ConnectionClosed; Err MissingHandshake; Err MissingHandshake].
Proof.
  intros c. split; [apply conn_in_established|]. split; [apply trickle_chunked|].
  split; [vm_compute; reflexivity|]. split; vm_compute; reflexivity.
Qed.

(** C15: the toy server sent one record; the network flips a bit, then delivers the record,
    then delivers it again.  The first is rejected, the second accepted, the third rejected. *)
Example C15_case : 
  let c := conn_in (rfc_header 20 ++ repeat x00 20 ++ toy_data 0 ty_data [x68; x69] 3 ++ toy_data 0 ty_data [x68; x69] 3) in
  established toy 300 c /\
  map snd (fst (run toy [OpRead (zeros 4); OpRead (zeros 4); OpRead (zeros 4)] c)) =
    [Err CryptoError; Ok (VRead 2 [x68; x69; x00; x00]); Err CryptoError].
Proof.
  intros c. split; [apply conn_in_established|]. vm_compute. reflexivity.
Qed.

(** C22: see the second and third call of [C14_case]. *)
Example C22_case : let c := conn_in their_wire in
  in_use toy 300 c /\ fst (step toy OpFillBuf c) = Ok (VBytes [x68; x69]).
Proof. intros c. split; [apply established_in_use; apply C14_case|]. vm_compute. reflexivity. Qed.

Print Assumptions C14_in_order.
Print Assumptions C14_reads.
Print Assumptions C14_complete.
Print Assumptions C15_only_authentic.
Print Assumptions C15_prefix_or_forgery.
Print Assumptions C22_handle.
Print Assumptions C22_len.
Print Assumptions handle_fifo.
Print Assumptions C25_close_after_data.
Print Assumptions C25_closed_by_alert_partial.
Print Assumptions C25_refuted.
