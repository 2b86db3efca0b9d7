(** * C71: reading in one thread and writing in another *)
From Coq Require Import String List NArith Arith Bool Lia ZArith.
From Coq.Strings Require Import Byte.
From Coq Require Import ZifyBool ZifyNat ZifyN.
From Verif Require Import Base Buffer Codes Extensions Crypto KeySchedule Config Handshake Record WriteBuffer
  Transport RecordReader ReadBuffer Connection Api Split
  BaseProofs SpecWire SpecKeys SpecRecord SpecSend SendProofs HsProofs ConnProofs SpecSession PropSession SpecRead ReadProofs RecvProofs PropSend PropWrite PropRead
  SpecEndpoint EndpointProofs SpecSplit SplitProofs PropSplit Toy ToyRun.
Import ListNotations.
Local Open Scope list_scope.

Definition sending_call (o : op) : Prop := o = OpFlush \/ exists b, o = OpWrite b.

Lemma w_results_sends t : Forall (fun p => sending_call (fst p)) (w_results t).
Proof. unfold w_results. apply Forall_forall. intros p Hp. apply in_map_iff in Hp as ([q v] & <- & _). cbn [fst]. destruct q; [right; eexists; reflexivity|left; reflexivity]. Qed.

Lemma obo_app C : forall h1 h2 c c', one_by_one C c (h1 ++ h2) c' <-> exists c1, one_by_one C c h1 c1 /\ one_by_one C c1 h2 c'.
Proof.
  induction h1 as [|[o r] h1 IH]; intros h2 c c'; cbn [app]; split.
  - intros H. exists c. split; [constructor|exact H].
  - intros (c1 & H1 & H2). inversion H1. subst. exact H2.
  - intros H. inversion H as [|x o' r' c1 h c2 Hs Hr]. subst. apply IH in Hr as (c2 & H1 & H2). exists c2. split; [econstructor; eauto|exact H2].
  - intros (c1 & H1 & H2). inversion H1 as [|x o' r' c2 h c3 Hs Hr]. subst. econstructor; [exact Hs|]. apply IH. eauto.
Qed.

Lemma sends_or_fails C L c ops rs c1 q r c' : crypto_ok C -> established C L c -> 133 <= L -> (N.of_nat (length ops) < u64_max)%N ->
  no_close ops -> run C ops c = (rs, c1) -> not_closed rs -> sending_call q -> step C q c1 = (r, c') -> (exists v, r = Ok v) \/ io_fault r.
Proof.
  intros HC He HL Hlen Hcl Hrun Hnc X S1.
  destruct (after_calls C L c ops rs c1 HC He HL Hcl Hrun) as (pend & Hs & _ & _ & _ & Hcnt & Hop).
  specialize (Hop Hnc).
  assert (Hq : receives q = false) by (destruct X as [->|[b ->]]; reflexivity).
  destruct (transmit_step C L c1 q r c' pend HC Hs Hq S1) as (Ht & _). rewrite Hop in Ht.
  assert (Hemit : forall rec b s o s', (t_next s < u64_max)%N -> emit rec b s = (o, s') -> o = Ok tt \/ io_fault o).
  { intros rec b s o s' Hn Hem. unfold emit in Hem. apply N.ltb_lt in Hn. rewrite Hn in Hem.
    unfold tx_write_all in Hem. destruct (tx_wr (t_tx s)) as [|[| |] w]; cbn [SpecEndpoint.io_error] in Hem.
    1,2: destruct b; [|apply pair_equal_spec in Hem as [<- _]; now left];
      unfold tx_flush in Hem; cbn [tx_fl] in Hem; destruct (tx_fl (t_tx s)) as [|[| |] fl]; cbn [SpecEndpoint.io_error] in Hem;
      apply pair_equal_spec in Hem as [<- _]; (now left) || (right; left; eauto; fail) || (right; right; reflexivity).
    all: apply pair_equal_spec in Hem as [<- _]; right; (left; eexists; reflexivity) || (right; reflexivity). }
  assert (Hdata : forall s o s', (t_next s < u64_max)%N -> emit_data C (write_key c1) (write_iv c1) s = (o, s') -> o = Ok tt \/ io_fault o).
  { intros s o s' Hn Hem. unfold emit_data in Hem. destruct (t_data s); [eapply Hemit; eauto|].
    apply pair_equal_spec in Hem as [<- _]. now left. }
  assert (Hres : forall (o : outcome tls_error unit) v, o = Ok tt \/ io_fault o -> (exists w, result_of o v = Ok w) \/ io_fault (result_of o v)).
  { intros o v [-> | [[k ->] | ->]]; cbn; [left; eauto|right; left; eauto|right; right; reflexivity]. }
  assert (Hn : (t_next (sender_of c1) < u64_max)%N).
  { unfold sender_of. cbn [t_next]. unfold wst in Hcnt. lia. }
  destruct X as [->|(b & ->)]; cbn [transmit] in Ht.
  - destruct (emit_data _ _ _ (sender_of c1)) as [o s1] eqn:Ee. apply pair_equal_spec in Ht as [<- _]. apply Hres. eapply Hdata; eauto.
  - match type of Ht with context [if ?x then _ else _] => destruct x end; [|apply pair_equal_spec in Ht as [<- _]; eauto].
    match type of Ht with context [emit_data ?a ?b ?d ?s] => destruct (emit_data a b d s) as [o s1] eqn:Ee end.
    apply pair_equal_spec in Ht as [<- _]. apply Hres. eapply Hdata; [|exact Ee]. exact Hn.
Qed.

Lemma sends_no_close (h : list (op * outcome tls_error value)) : Forall (fun p => sending_call (fst p)) h -> no_close (map fst h).
Proof. intros H. unfold no_close. induction H as [|[o r] h [E|[b E]] _ IH]; cbn [fst] in *; [reflexivity|subst o; exact IH..]. Qed.

Lemma fine_runs C c h c' : one_by_one C c h c' -> Forall (fun p => sending_call (fst p)) h -> Forall (fun p => exists v, snd p = Ok v) h -> run C (map fst h) c = (h, c').
Proof.
  intros H1 H2 H3. apply (C36_histories C c h c' H1). intros o v Hin. rewrite Forall_forall in H2, H3.
  specialize (H2 _ Hin). destruct (H3 _ Hin) as [w E]. cbn [fst snd] in *. subst v. destruct H2 as [->|[b ->]]; repeat split; discriminate.
Qed.

(** Calls of a writer over a transport that works all succeed. *)
Lemma writer_fine C L lim c : crypto_ok C -> established C L c -> 133 <= L <= 133 + lim -> (N.of_nat lim < 65519)%N -> transport_succeeds c ->
  forall h c', one_by_one C c h c' -> Forall (fun p => sending_call (fst p)) h -> (N.of_nat (length h) <= u64_max)%N ->
  Forall (fun p => exists v, snd p = Ok v) h.
Proof.
  intros HC He HL Hlim Htx. induction h as [|[o r] h IH] using rev_ind; intros c' H Hs Hlen; [constructor|].
  apply obo_app in H as (c1 & H1 & H2). apply Forall_app in Hs as [Hs Hs1]. rewrite app_length in Hlen. cbn [length] in Hlen.
  specialize (IH c1 H1 Hs ltac:(lia)). apply Forall_app. split; [exact IH|].
  apply Forall_cons_iff in Hs1 as [Hs1 _]. cbn [fst] in Hs1. inversion H2 as [|x o' r' c2 h' c3 Hst Hn]. subst. inversion Hn. subst. clear H2 Hn.
  pose proof (fine_runs C c h c1 H1 Hs IH) as Hrun.
  assert (Hnc : not_closed h). { eapply Forall_impl; [|exact IH]. intros p [v E]. rewrite E. discriminate. }
  constructor; [|constructor]. cbn [snd].
  destruct (sends_or_fails C L c (map fst h) h c1 o r c' HC He ltac:(lia) ltac:(rewrite map_length; lia) (sends_no_close h Hs) Hrun Hnc Hs1 Hst) as [Hok|Hio]; [exact Hok|].
  exfalso.
  assert (Hrun2 : run C (map fst (h ++ [(o, r)])) c = (h ++ [(o, r)], c')).
  { rewrite map_app. cbn [map fst]. rewrite (run_app C (map fst h) [o] c h c1 Hrun).
    - rewrite (run_cons' _ _ _ _ _ _ Hst). destruct (stops o r); reflexivity.
    - apply Forall_forall. intros p Hp. rewrite Forall_forall in Hs, IH. destruct (IH p Hp) as [v E]. specialize (Hs p Hp).
      unfold stops. rewrite E. destruct Hs as [E2|[b E2]]; rewrite E2; reflexivity. }
  assert (Hcl2 : no_close (map fst (h ++ [(o, r)]))) by (apply sends_no_close, Forall_app; split; [exact Hs|constructor; [exact Hs1|constructor]]).
  assert (Hlen2 : (N.of_nat (length (map fst (h ++ [(o, r)]))) <= u64_max)%N) by (rewrite map_length, app_length; cbn [length]; lia).
  destruct (C13_peer_gets_what_was_accepted C L lim c _ _ c' HC He HL Hlim Htx Hcl2 Hlen2 Hrun2) as (_ & _ & _ & _ & _ & _ & _ & _ & _ & G).
  apply Forall_app in G as [_ G]. apply Forall_cons_iff in G as [G _]. apply G. split; [|exact Hio]. cbn [fst].
  destruct Hs1 as [->|[b ->]]; reflexivity.
Qed.

(** With the flag down a write is refused and changes nothing; a flush does not look at the flag. *)
Definition is_flush (p : op * outcome tls_error value) : bool := match fst p with OpFlush => true | _ => false end.

Lemma shut_steps C : forall h c c', cn_opened c = false -> one_by_one C c h c' -> Forall (fun p => sending_call (fst p)) h ->
  forall d, cn_wh d = cn_wh c -> exists d', one_by_one C d (filter is_flush h) d' /\ cn_wh d' = cn_wh c' /\ accepted h = [] /\
    Forall (fun p => is_flush p = false -> snd p = Err MissingHandshake) h.
Proof.
  induction h as [|[o r] h IH]; intros c c' Hf H Hs d Hd.
  { inversion H. subst. exists d. repeat split; [constructor|exact Hd|constructor]. }
  inversion H as [|x o' r' c1 h' c2 Hst Hr]. subst. clear H. apply Forall_cons_iff in Hs as [H1 Hs]. cbn [fst] in H1.
  destruct H1 as [->|[b ->]].
  - cbn [step] in Hst. unfold cn_flush in Hst. unfold bind at 1, on_wh at 1 in Hst. rewrite <- Hd in Hst.
    destruct (wh_flush C (cn_wh d)) as [o1 w1] eqn:E.
    assert (Hc1 : cn_opened c1 = false /\ cn_wh c1 = w1).
    { destruct o1; apply pair_equal_spec in Hst as [_ <-]; cbn; auto. }
    destruct Hc1 as [Hf1 Hw1].
    set (d1 := mk_conn (cn_rd d) (cn_dec d) w1 (cn_shared d) (cn_opened d)).
    destruct (IH c1 c' Hf1 Hr Hs d1 ltac:(cbn; now symmetry)) as (d' & A & B & D & F).
    exists d'. cbn [filter is_flush fst]. split; [|split; [exact B|split; [|constructor; [discriminate|exact F]]]].
    + apply obo_cons with (c1 := d1); [|exact A]. cbn [step]. unfold cn_flush. unfold bind at 1, on_wh at 1. rewrite E.
      destruct o1; apply pair_equal_spec in Hst as [<- _]; reflexivity.
    + unfold accepted in *. cbn [map concat fst snd accepted1 app]. exact D.
  - cbn [step] in Hst. unfold cn_write in Hst. unfold bind, get, on_wh, wh_write, fail in Hst. rewrite Hf in Hst. apply pair_equal_spec in Hst as [<- <-].
    match type of Hr with one_by_one _ ?x _ _ => destruct (IH x c' eq_refl Hr Hs d Hd) as (d' & A & B & D & F) end.
    exists d'. cbn [filter is_flush fst]. split; [exact A|]. split; [exact B|]. split; [|constructor; [reflexivity|exact F]].
    unfold accepted in *. cbn [map concat fst snd accepted1 app]. exact D.
Qed.

(** ** The writer *)

(** What the writing thread sent, at any moment: whatever arrives meanwhile, whatever the reading
    thread does with it - errors and panics included - and however the two are interleaved. *)
Theorem C71_sent : forall C L lim c rs ws xs, crypto_ok C -> established C L c -> transport_succeeds c ->
  133 <= L <= 133 + lim -> (N.of_nat lim < 65519)%N -> (N.of_nat (length ws) <= u64_max)%N ->
  let m := schedule C xs (split c rs ws) in
  let said := w_results (m_writer m) in
  exists new ds rest, tx_log (wh_tx (t_local (m_writer m))) = sent_log c ++ new /\
    peer_read C lim (write_key c) (write_iv c) 0 (wire new) = (ds, Pending []) /\
    Forall (fun d => fst d = ty_data) ds /\
    concat (map snd ds) ++ rest = accepted said /\
    (forall said1 r, said = said1 ++ [(OpFlush, r)] -> rest = []) /\
    Forall (fun p => (exists v, snd p = Ok v) \/
      (exists b, fst p = OpWrite b) /\ snd p = Err MissingHandshake /\ exists q, In (q, Err ConnectionClosed) (t_log (m_reader m))) said.
Proof.
  intros C L lim c rs ws xs HC He Htx HL Hlim Hws m said.
  destruct (C36_writer C c rs ws xs) as (ys1 & ys2 & c1 & c2 & Ey & O1 & O2 & El & Hcl). fold m in Ey, El, Hcl. fold said in Ey.
  pose proof (w_results_sends (m_writer m)) as Hs. fold said in Hs. rewrite Ey in Hs. apply Forall_app in Hs as [Hs1 Hs2].
  assert (Hcnt : length said <= length ws).
  { destruct (C36_calls C c rs ws xs) as (_ & (z & Ez & _)). fold m in Ez. unfold said, w_results. rewrite map_length, Ez, app_length, map_length. lia. }
  rewrite Ey, app_length in Hcnt.
  destruct (shut_steps C ys2 (shut c1) c2 eq_refl O2 Hs2 c1 eq_refl) as (d' & A & B & D & F).
  set (h := ys1 ++ filter is_flush ys2).
  assert (Oh : one_by_one C c h d') by (apply obo_app; eauto).
  assert (Hfl : length (filter is_flush ys2) <= length ys2).
  { clear. induction ys2 as [|p ys IH]; cbn [filter]; [lia|]. destruct (is_flush p); cbn [length]; lia. }
  assert (Hsh : Forall (fun p => sending_call (fst p)) h).
  { apply Forall_app. split; [exact Hs1|]. apply Forall_forall. intros p Hp. apply filter_In in Hp as [Hp _]. rewrite Forall_forall in Hs2. auto. }
  assert (Hlen : (N.of_nat (length h) <= u64_max)%N) by (unfold h; rewrite app_length; lia).
  pose proof (writer_fine C L lim c HC He HL Hlim Htx h d' Oh Hsh Hlen) as Hok.
  pose proof (fine_runs C c h d' Oh Hsh Hok) as Hrun.
  destruct (C13_peer_gets_what_was_accepted C L lim c _ _ d' HC He HL Hlim Htx (sends_no_close h Hsh) ltac:(rewrite map_length; exact Hlen) Hrun)
    as (new & ds & rest & G1 & G2 & G3 & G4 & _ & G6 & _).
  exists new, ds, rest. split; [rewrite El, <- B; exact G1|]. split; [exact G2|]. split; [exact G3|].
  assert (Hac : accepted h = accepted said).
  { rewrite Ey. unfold h, accepted in *. rewrite !map_app, !concat_app, D. f_equal.
    clear. induction ys2 as [|[o r] ys IH]; [reflexivity|]. cbn [filter]. unfold is_flush at 1. destruct o; cbn [fst]; exact IH. }
  split; [rewrite <- Hac; exact G4|]. split.
  { intros said1 r E. rewrite Ey in E. destruct (list_eq_dec Bool.bool_dec (map is_flush ys2) []) as [E0|E0].
    - apply map_eq_nil in E0. subst ys2. rewrite app_nil_r in E. apply (G6 said1 r). unfold h. cbn [filter]. now rewrite app_nil_r.
    - destruct ys2 as [|p ys] using rev_ind; [contradiction|]. clear IHys. rewrite app_assoc in E. apply app_inj_tail in E as [_ ->].
      apply (G6 (ys1 ++ filter is_flush ys) r). unfold h. rewrite filter_app. cbn [filter is_flush fst]. now rewrite app_assoc. }
  rewrite Ey. apply Forall_app in Hok as [Hok1 Hok2]. apply Forall_app. split.
  { eapply Forall_impl; [|exact Hok1]. auto. }
  apply Forall_forall. intros p Hp. rewrite Forall_forall in Hok2, F, Hs2. destruct (is_flush p) eqn:Ef.
  { left. apply Hok2. apply filter_In. auto. }
  right. destruct (Hs2 p Hp) as [E|E]; [unfold is_flush in Ef; rewrite E in Ef; discriminate|]. split; [exact E|]. split; [auto|].
  destruct Hcl as [-> | Hcl]; [destruct Hp|exact Hcl].
Qed.

(** ** The reader *)

Lemma r_results_receive t : Forall (fun p => receives (fst p) = true) (r_results t).
Proof. unfold r_results. apply Forall_forall. intros p Hp. apply in_map_iff in Hp as ([q v] & <- & _). cbn [fst]. destruct q; reflexivity. Qed.

(** A history that did not come to its end has a last call that panicked. *)
Lemma obo_runs C : forall h c c', one_by_one C c h c' -> Forall (fun p => receives (fst p) = true) h ->
  run C (map fst h) c = (h, c') \/ exists h1 o r c1, run C (map fst h) c = (h1 ++ [(o, r)], c1) /\ receives o = true /\ ((exists x, r = Panic x) \/ r = Diverge).
Proof.
  induction h as [|[o r] h IH]; intros c c' H Hr.
  { inversion H. subst. left. reflexivity. }
  inversion H as [|x o' r' c1 h' c2 Hst Hn]. subst. apply Forall_cons_iff in Hr as [Ho Hr]. cbn [fst] in Ho.
  cbn [map fst]. rewrite (run_cons' _ _ _ _ _ _ Hst). destruct (stops o r) eqn:Es.
  - right. exists [], o, r, c1. split; [reflexivity|]. split; [exact Ho|]. unfold stops in Es. destruct o; try discriminate Ho; destruct r; try discriminate; eauto.
  - destruct (IH c1 c' Hn Hr) as [E|(h1 & o1 & r1 & c3 & E & X)]; rewrite E; cbn [fst snd]; [left; reflexivity|].
    right. exists ((o, r) :: h1), o1, r1, c3. split; [reflexivity|exact X].
Qed.

(** The calls of the reading thread, at any moment, when the server sends the records [srv] and then
    ends its stream: they get the server's data in order; each succeeds or reports the end of the
    stream, after all data was taken. *)
Theorem C71_received : forall C L c rs ws xs srv, crypto_ok C -> established C L c -> steady c ->
  incoming c = server_wire C (read_key c) (read_iv c) 0 srv -> Forall (served C (room c)) srv -> (N.of_nat (length srv) <= u64_max)%N ->
  let got := r_results (m_reader (schedule C xs (split c rs ws))) in
  exists cs1 cs2 taken q, data_of (map fst srv) = cs1 ++ cs2 /\ fifo [] got cs1 taken q /\
    Forall (fun p => (exists v, snd p = Ok v) \/ snd p = Err IoError) got /\
    (Exists (fun p => snd p = Err IoError) got -> concat cs2 = [] /\ q = []).
Proof.
  intros C L c rs ws xs srv HC He Hst Hin Hsrv Hlen got.
  destruct (C36_reader C c rs ws xs) as (_ & _ & c' & Ho & _). fold got in Ho.
  pose proof (r_results_receive (m_reader (schedule C xs (split c rs ws)))) as Hr. fold got in Hr.
  destruct (C14_in_order C L c srv (map fst got) HC He Hst Hin Hsrv Hlen) as (cs1 & cs2 & taken & q & H1 & H2 & H3 & H4).
  destruct (obo_runs C got c c' Ho Hr) as [E|(h1 & o & r & c1 & E & X1 & X2)].
  2:{ exfalso. rewrite E in H3. cbn [fst] in H3. apply Forall_app in H3 as [_ H3]. apply Forall_cons_iff in H3 as [H3 _]. cbn [fst snd] in H3.
      destruct (H3 X1) as [[v Ev]|Ev], X2 as [[x Ex]|Ex]; congruence. }
  rewrite E in H2, H3, H4. cbn [fst] in H2, H3, H4. exists cs1, cs2, taken, q. split; [exact H1|]. split; [exact H2|]. split.
  - apply Forall_forall. intros p Hp. rewrite Forall_forall in H3, Hr. apply (H3 p Hp). auto.
  - intros HE. apply H4. apply Exists_exists in HE as (p & Hp & Ep). apply Exists_exists. exists p. rewrite Forall_forall in Hr. auto.
Qed.

(** ** Both directions *)

(** One thread only reads, the other writes and flushes.  At every moment the bytes read are a prefix
    of what the server sent, and the server's view of what was written is a prefix of what the calls
    of [write] reported; no call of either thread fails before the stream has ended.  When the reader
    has made more calls than the server sent bytes, it has all of them; when the writer's last call
    was [flush], the server has all that was accepted.  Neither depends on how far the other is. *)
Theorem C71_duplex : forall C L lim c rs ws xs srv, crypto_ok C -> established C L c -> steady c -> transport_succeeds c ->
  133 <= L <= 133 + lim -> (N.of_nat lim < 65519)%N -> (N.of_nat (length ws) <= u64_max)%N ->
  incoming c = server_wire C (read_key c) (read_iv c) 0 srv -> Forall (served C (room c)) srv -> (N.of_nat (length srv) <= u64_max)%N ->
  Forall (fun q => exists dst, q = RRead dst /\ dst <> []) rs ->
  let m := schedule C xs (split c rs ws) in
  let got := r_results (m_reader m) in
  let said := w_results (m_writer m) in
  let data := concat (data_of (map fst srv)) in
  (prefix (read_bytes got) data /\ Forall (fun p => (exists v, snd p = Ok v) \/ snd p = Err IoError /\ read_bytes got = data) got /\
   (length data < length got -> read_bytes got = data)) /\
  Forall (fun p => exists v, snd p = Ok v) said /\
  exists new ds rest, tx_log (wh_tx (t_local (m_writer m))) = sent_log c ++ new /\
    peer_read C lim (write_key c) (write_iv c) 0 (wire new) = (ds, Pending []) /\
    Forall (fun d => fst d = ty_data) ds /\ concat (map snd ds) ++ rest = accepted said /\
    (forall said1 r, said = said1 ++ [(OpFlush, r)] -> rest = []).
Proof.
  intros C L lim c rs ws xs srv HC He Hst Htx HL Hlim Hws Hin Hsrv Hlen Hrs m got said data.
  destruct (C71_received C L c rs ws xs srv HC He Hst Hin Hsrv Hlen) as (cs1 & cs2 & taken & q & H1 & H2 & H3 & H4). fold m in H2, H3, H4. fold got in H2, H3, H4.
  assert (Hops : Forall (fun o => exists dst, o = OpRead dst /\ dst <> []) (map fst got)).
  { destruct (C36_calls C c rs ws xs) as ((z & Ez & _) & _). fold m in Ez. rewrite Ez in Hrs. apply Forall_app in Hrs as [Hrs _].
    unfold got, r_results. rewrite map_map. apply Forall_forall. intros o Ho. apply in_map_iff in Ho as ([a b] & <- & Hi). cbn [fst].
    rewrite Forall_forall in Hrs. destruct (Hrs a) as (dst & -> & Hd); [apply in_map_iff; exists (a, b); auto|]. exists dst. auto. }
  assert (Hrun : run C (map fst got) c = (got, snd (run C (map fst got) c))).
  { destruct (C36_reader C c rs ws xs) as (_ & _ & c' & Ho & _). fold m in Ho. fold got in Ho.
    rewrite (C36_histories C c got c' Ho); [reflexivity|]. intros o v Hi. rewrite Forall_forall in H3, Hops.
    destruct (Hops o) as (dst & -> & _); [apply in_map_iff; exists (o, v); auto|].
    destruct (H3 (OpRead dst, v) Hi) as [[w E]|E]; cbn [snd] in E; subst v; repeat split; discriminate. }
  assert (Hor : only_reads (map fst got)).
  { eapply Forall_impl; [|exact Hops]. intros o (dst & -> & _) _. eauto. }
  pose proof (C14_reads C L c srv (map fst got) HC He Hst Hin Hsrv Hlen Hor) as [P1 P2]. rewrite Hrun in P1, P2. cbn [fst] in P1, P2. fold data in P1, P2.
  split.
  { split; [exact P1|]. split.
    - apply Forall_forall. intros p Hp. rewrite Forall_forall in H3, Hops. destruct (H3 p Hp) as [Hv|Hv]; [auto|]. right. split; [exact Hv|].
      apply P2. apply Exists_exists. exists p. split; [exact Hp|]. split; [|exact Hv]. destruct p as [o v].
      destruct (Hops o) as (dst & E & _); [apply in_map_iff; exists (o, v); auto|]. cbn [fst]. subst o. reflexivity.
    - intros Hl. pose proof (C14_complete C L c srv (map fst got) HC He Hst Hin Hsrv Hlen Hops) as P3. rewrite Hrun in P3. cbn [fst] in P3. apply P3.
      rewrite map_length. exact Hl. }
  destruct (C71_sent C L lim c rs ws xs HC He Htx HL Hlim Hws) as (new & ds & rest & G1 & G2 & G3 & G4 & G5 & G6). fold m in G1, G4, G5, G6. fold said in G4, G5, G6.
  split.
  { eapply Forall_impl; [|exact G6]. intros p [Hv|(_ & _ & qq & Hq)]; [exact Hv|]. exfalso.
    rewrite Forall_forall in H3. destruct (H3 (r_op qq, Err ConnectionClosed)) as [[w E]|E]; [|discriminate E..].
    unfold got, r_results. apply in_map_iff. exists (qq, Err ConnectionClosed). auto. }
  exists new, ds, rest. auto.
Qed.

(** ** A concrete case *)

(** The toy server of C14 sends "hi", tickets, nothing, "!", one byte at a time; the reader asks five
    times; the writer writes 100 bytes twice and flushes.  The schedule lets them alternate. *)
Definition d_conn : conn := conn_in their_wire.
Definition d_reads : list rcall := repeat (RRead (zeros 1)) 5.
Definition d_writes : list wcall := [WWrite (repeat x41 100); WWrite (repeat x42 100); WFlush].
Definition d_moves : list who := concat (repeat [Reader; Writer; Reader] 8).
Definition d_end : machine := Eval vm_compute in schedule toy d_moves (split d_conn d_reads d_writes).

Example C71_premises : established toy 300 d_conn /\ steady d_conn /\ transport_succeeds d_conn /\ 133 <= 300 <= 133 + rfc_limit /\
  incoming d_conn = server_wire toy (read_key d_conn) (read_iv d_conn) 0 some_records /\ Forall (served toy (room d_conn)) some_records /\
  Forall (fun q => exists dst, q = RRead dst /\ dst <> []) d_reads.
Proof.
  split; [apply conn_in_established|]. split; [unfold steady, d_conn; rewrite conn_in_rx; apply trickle_chunked|].
  split; [split; constructor|]. split; [unfold rfc_limit; lia|]. split; [vm_compute; reflexivity|].
  split; [apply some_records_served|]. unfold d_reads. cbn [repeat]. repeat constructor; exists (zeros 1); (split; [reflexivity|discriminate]).
Qed.

Example C71_case : map (fun p => match snd p with Ok (VRead n b) => Some (firstn n b) | _ => None end) (t_log (m_reader d_end)) = [Some [x68]; Some [x69]; Some [x21]; None; None] /\
  map snd (t_log (m_writer d_end)) = [Ok (VCount 100); Ok (VCount 67); Ok VUnit].
Proof. split; reflexivity. Qed.

Print Assumptions C71_sent.
Print Assumptions C71_received.
Print Assumptions C71_duplex.
