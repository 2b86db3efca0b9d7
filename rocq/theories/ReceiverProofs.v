(** * The receiving side behaves as the machine of SpecReceiver.v *)
From Coq Require Import String List NArith Arith Bool Lia ZArith.
From Coq.Strings Require Import Byte.
From Coq Require Import ZifyBool ZifyNat ZifyN.
From Verif Require Import Base ParseBuffer Buffer Codes Extensions Crypto KeySchedule Config Handshake Record WriteBuffer
  Transport RecordReader ReadBuffer Connection Api BaseProofs ParseProofs SpecWire SpecCodes SpecMessages WireProofs SpecKeys
  SpecRecord SpecRead KeyProofs RecordProofs SpecSend SendProofs HsProofs ConnProofs FrameProofs PropFrame DecryptProofs FlagProofs ReadProofs RecvProofs ServeProofs
  SpecHandshake AcceptProofs LocalProofs SpecComplete MessageProofs SpecDefect DefectProofs SpecFailure FailureProofs CaseProofs SpecReceiver.
Import ListNotations.
Local Open Scope list_scope.

(** ** Handshake messages *)

Lemma ticket_pos C b : ticket C b -> b <> [].
Proof. apply understood_pos. Qed.

Lemma denotes_kind m h : denotes m h -> (m = M_NewSessionTicket <-> h = SH_NewSessionTicket).
Proof. destruct m, h; cbn; intros H; try contradiction; split; intros E; try discriminate; reflexivity. Qed.

Lemma read_kind C tr pre b m post : understood C b m ->
  exists h, read_server_handshake C tr (at_pos pre (b ++ post) []) = (Ok (h, tr ++ b), at_pos (pre ++ b) post []) /\
    (m = M_NewSessionTicket <-> h = SH_NewSessionTicket).
Proof.
  intros Hu. destruct (understood_parses C b m Hu) as (h & Hp & Hd). exists (with_hash C tr h).
  replace (at_pos pre (b ++ post) []) with (at_pos pre b post) by (unfold at_pos; now rewrite app_nil_r).
  rewrite (read_message C tr pre b post h Hp). split; [unfold at_pos; now rewrite app_nil_r|].
  rewrite (denotes_kind m h Hd). destruct h; cbn; split; intros E; try discriminate; reflexivity.
Qed.

Lemma faulty_not_closed C bs e : faulty C bs e -> e <> ConnectionClosed.
Proof.
  intros Hu. destruct (proj2 (read_faulty C [] [] bs e) Hu) as [q E]. pose proof (nc_read_handshake C [] (at_pos [] bs [])) as Hn.
  rewrite E in Hn. intros ->. now apply Hn.
Qed.

Lemma pass_tickets C : forall ms rest pre fuel tr, Forall (ticket C) ms -> length (concat ms ++ rest) < fuel ->
  exists fuel' tr', length rest < fuel' /\
    hs_pass C fuel tr (at_pos pre (concat ms ++ rest) []) = hs_pass C fuel' tr' (at_pos (pre ++ concat ms) rest []).
Proof.
  induction ms as [|m ms IH]; intros rest pre fuel tr Hm Hf.
  - exists fuel, tr. cbn [concat app] in *. rewrite app_nil_r. auto.
  - apply Forall_cons_iff in Hm as [Hm Hms]. pose proof (ticket_pos C m Hm) as Hpos. cbn [concat] in *. rewrite <- app_assoc in *.
    assert (Hl : 0 < length m) by (destruct m; [contradiction|cbn; lia]). rewrite app_length in Hf.
    destruct fuel as [|fuel]; [lia|].
    destruct (IH rest (pre ++ m) fuel (tr ++ m) Hms ltac:(lia)) as (fuel' & tr' & H1 & H2).
    exists fuel', tr'. split; [exact H1|]. rewrite (app_assoc pre m), <- H2. cbn [hs_pass].
    assert (E0 : (length (pb_buf (at_pos pre (m ++ concat ms ++ rest) [])) - pb_pos (at_pos pre (m ++ concat ms ++ rest) []) =? 0) = false).
    { apply Nat.eqb_neq. unfold at_pos. cbn [pb_buf pb_pos]. rewrite !app_length. lia. }
    rewrite E0. destruct (read_kind C tr pre m _ (concat ms ++ rest) Hm) as (h & E & Hk). rewrite E, (proj1 Hk eq_refl). reflexivity.
Qed.

Lemma at_new bs : pb_new bs = at_pos [] bs [].
Proof. unfold pb_new, at_pos. cbn [app length]. now rewrite app_nil_r. Qed.

(** The messages in a record: tickets, perhaps followed by something else. *)
Lemma tickets_cases C : forall k bs, length bs < k ->
  (exists ms, Forall (ticket C) ms /\ bs = concat ms) \/
  (exists ms b m junk, Forall (ticket C) ms /\ bs = concat ms ++ b ++ junk /\ understood C b m /\ m <> M_NewSessionTicket) \/
  (exists ms junk e, Forall (ticket C) ms /\ bs = concat ms ++ junk /\ junk <> [] /\ faulty C junk e).
Proof.
  induction k as [|k IH]; intros bs Hk; [lia|].
  destruct bs as [|x bs]; [left; exists []; split; [constructor|reflexivity]|].
  destruct (bytes_cases C (x :: bs)) as [[e Hu]|(b & m & junk & Hb & Hu)].
  { right. right. exists [], (x :: bs), e. split; [constructor|]. split; [reflexivity|]. split; [discriminate|exact Hu]. }
  rewrite Hb in *. pose proof (understood_pos C b m Hu) as Hne.
  assert (Hm : m = M_NewSessionTicket \/ m <> M_NewSessionTicket) by (destruct m; [right; discriminate|now left|right; discriminate..]).
  destruct Hm as [->|Hm].
  2:{ right. left. exists [], b, m, junk. split; [constructor|]. auto. }
  destruct (IH junk) as [(ms & Hms & ->)|[(ms & b' & m' & j & Hms & -> & Hr)|(ms & j & e & Hms & -> & Hr)]].
  { destruct b; [contradiction|]. rewrite app_length in Hk. cbn in Hk. lia. }
  - left. exists (b :: ms). split; [constructor; [exact Hu|exact Hms]|reflexivity].
  - right. left. exists (b :: ms), b', m', j. split; [constructor; [exact Hu|exact Hms]|]. split; [cbn [concat]; now rewrite <- app_assoc|exact Hr].
  - right. right. exists (b :: ms), j, e. split; [constructor; [exact Hu|exact Hms]|]. split; [cbn [concat]; now rewrite <- app_assoc|exact Hr].
Qed.

Lemma pass_more C fuel t pre rest : rest <> [] -> length rest < fuel -> exists f, hs_pass C fuel t (at_pos pre rest []) =
  match read_server_handshake C t (at_pos pre rest []) with
  | (Ok (SH_NewSessionTicket, tr'), p') => hs_pass C f tr' p'
  | (Ok _, _) => Panic PUnimplemented
  | (o, _) => omap (fun _ => tt) o
  end.
Proof.
  intros Hne Hl. destruct fuel as [|f]; [lia|]. exists f. cbn [hs_pass].
  assert (E0 : (length (pb_buf (at_pos pre rest [])) - pb_pos (at_pos pre rest []) =? 0) = false).
  { apply Nat.eqb_neq. unfold at_pos. cbn [pb_buf pb_pos]. rewrite !app_length. destruct rest; [contradiction|cbn; lia]. }
  now rewrite E0.
Qed.

Lemma pass_all C tr ms bs : Forall (ticket C) ms -> bs = concat ms -> hs_pass C (S (length bs)) tr (pb_new bs) = Ok tt.
Proof.
  intros Hms ->. rewrite at_new. destruct (pass_tickets C ms [] [] (S (length (concat ms))) tr Hms) as (f' & tr' & H1 & H2).
  { rewrite app_nil_r. lia. }
  rewrite app_nil_r in H2. rewrite H2. unfold at_pos. destruct f'; cbn [hs_pass pb_buf pb_pos]; rewrite !app_nil_r, Nat.sub_diag; reflexivity.
Qed.

Lemma pass_message C tr ms b m j bs : Forall (ticket C) ms -> bs = concat ms ++ b ++ j -> understood C b m -> m <> M_NewSessionTicket ->
  hs_pass C (S (length bs)) tr (pb_new bs) = Panic PUnimplemented.
Proof.
  intros Hms -> Hu Hm. rewrite at_new.
  destruct (pass_tickets C ms (b ++ j) [] (S (length (concat ms ++ b ++ j))) tr Hms ltac:(lia)) as (f' & tr' & H1 & H2). rewrite H2.
  pose proof (understood_pos C b m Hu) as Hne.
  destruct (pass_more C f' tr' ([] ++ concat ms) (b ++ j)) as (f2 & ->); [destruct b; [contradiction|discriminate]|exact H1|].
  destruct (read_kind C tr' ([] ++ concat ms) b m j Hu) as (h & -> & Hk). destruct h; try reflexivity. now rewrite (proj2 Hk eq_refl) in Hm.
Qed.

Lemma pass_garbled C tr ms j bs e : Forall (ticket C) ms -> bs = concat ms ++ j -> j <> [] -> faulty C j e ->
  hs_pass C (S (length bs)) tr (pb_new bs) = Err e.
Proof.
  intros Hms E Hj Hu. rewrite at_new.
  destruct (pass_tickets C ms j [] (S (length bs)) tr Hms ltac:(rewrite <- E; lia)) as (f' & tr' & H1 & H2).
  destruct (pass_more C f' tr' ([] ++ concat ms) j Hj H1) as (f2 & E2). destruct (proj2 (read_faulty C tr' ([] ++ concat ms) j e) Hu) as [q E3].
  rewrite E at 2. rewrite H2, E2, E3. reflexivity.
Qed.

Lemma pass_cases C tr bs : 
  (exists ms, Forall (ticket C) ms /\ bs = concat ms /\ hs_pass C (S (length bs)) tr (pb_new bs) = Ok tt) \/
  (exists ms b m junk, Forall (ticket C) ms /\ bs = concat ms ++ b ++ junk /\ understood C b m /\ m <> M_NewSessionTicket /\
     hs_pass C (S (length bs)) tr (pb_new bs) = Panic PUnimplemented) \/
  (exists ms junk e, Forall (ticket C) ms /\ bs = concat ms ++ junk /\ junk <> [] /\ faulty C junk e /\
     hs_pass C (S (length bs)) tr (pb_new bs) = Err e).
Proof.
  destruct (tickets_cases C (S (length bs)) bs ltac:(lia)) as [(ms & Hms & E)|[(ms & b & m & j & Hms & E & Hu & Hm)|(ms & j & e & Hms & E & Hj & Hu)]].
  - left. exists ms. split; [exact Hms|]. split; [exact E|]. now apply (pass_all C tr ms).
  - right. left. exists ms, b, m, j. do 4 (split; [assumption|]). now apply (pass_message C tr ms b m j).
  - right. right. exists ms, j, e. do 4 (split; [assumption|]). now apply (pass_garbled C tr ms j).
Qed.

(** ** One record *)

(** The verdict and the outcome and effect of the code. *)
Definition amounts (v : verdict) (n n' : N) (o : outcome tls_error unit) (e : effect) : Prop :=
  match v with
  | V_data d => o = Ok tt /\ e = Window d /\ n' = (n + 1)%N
  | V_nothing => o = Ok tt /\ (e = Kept /\ n' = n \/ e = Counted /\ n' = (n + 1)%N)
  | V_error x => o = Err x /\ e = Kept /\ n' = n
  | V_closed => o = Err ConnectionClosed /\ e = Shut /\ n' = n
  | V_panic x => o = Panic x
  end.

Lemma alert_of_parse f l d : fst (parse_alert (pb_new f)) = Ok (l, d) -> is_alert f l d.
Proof.
  intros H. destruct (alert_cases f) as [(l' & d' & Ha)|(e & Ha)].
  - rewrite (alert_fwd _ _ _ Ha) in H. inversion H. subst. exact Ha.
  - rewrite (bad_alert_fwd _ _ Ha) in H. discriminate.
Qed.

Lemma bad_of_parse f e : fst (parse_alert (pb_new f)) = Err e -> bad_alert f e.
Proof.
  intros H. destruct (alert_cases f) as [(l' & d' & Ha)|(e' & Ha)].
  - rewrite (alert_fwd _ _ _ Ha) in H. discriminate.
  - rewrite (bad_alert_fwd _ _ Ha) in H. inversion H. subst. exact Ha.
Qed.

Lemma inner_verdict C k tr h f inner o e : hd_error h = Some ty_data -> rfc_open C (k_key k) (k_iv k) (k_counter k) h f = Some inner ->
  inner_fate C k tr inner o e ->
  exists v n', record_is C (k_key k) (k_iv k) (k_counter k) h f v n' /\ amounts v (k_counter k) n' o e.
Proof.
  intros Hh Ho Hf.
  assert (Hother : forall t b v, rfc_unpad inner = Some (t, b) -> content_is C t b v -> counted v = false -> amounts v (k_counter k) (k_counter k) o e ->
    exists v n', record_is C (k_key k) (k_iv k) (k_counter k) h f v n' /\ amounts v (k_counter k) n' o e).
  { intros t b v Hu Hc Hv Ha. exists v, (k_counter k). split; [eapply ri_other; eauto|exact Ha]. }
  inversion Hf as [|? Hne Hu|? t c Hu Ht|? t c ct Hu Ht Hct|? t c Hu Ht Hn|? t c Hu Ht Hp Hn|? t c e0 Hu Ht Hp He|? t c Hu Ht Hp|? t c e0 Hu Ht Hp He|? t c l d Hu Ht Hp Hd|? t c l Hu Ht Hp|? t c Hu Ht Hn]; subst.
  - exists (V_panic PUnwrap), (k_counter k). split; [now apply ri_empty|reflexivity].
  - destruct (unpad_none inner Hu) as [->|(j & ->)]; [contradiction|]. exists (V_error Unimplemented), (k_counter k). split; [now apply ri_zeros with j|]. cbn. auto.
  - eapply Hother; [exact Hu|apply ci_type| |]; try reflexivity; [|cbn; auto]. intros Hin. destruct t; cbn in Hin; try discriminate Ht; intuition discriminate.
  - assert (Et : t = x00 \/ t = ty_ccs) by (destruct Hct; subst ct; destruct t; try discriminate Ht; auto).
    destruct Et as [-> | ->]; [exfalso|].
    { clear -Hu. pose proof (strip_spec inner []) as Hs. cbv zeta in Hs. rewrite Hu in Hs. destruct Hs as [_ [n ->]].
      unfold rfc_unpad, rfc_inner in Hu. rewrite !rev_app_distr, rev_repeat in Hu. cbn [rev app] in Hu. rewrite <- app_assoc in Hu. rewrite drop_zeros_repeat in Hu. cbn in Hu.
      destruct (drop_zeros (rev c)) as [|y l] eqn:E; [discriminate|]. inversion Hu. subst y. clear -E. revert E. generalize (rev c). induction l0 as [|z l0 IH]; cbn; [discriminate|]. destruct z; try (intros [=]; fail); auto. }
    eapply Hother; [exact Hu|apply ci_ccs| |]; [reflexivity|cbn; auto].
  - apply content_type_data in Ht. subst t. exists (V_data c), (k_counter k + 1)%N. split; [eapply ri_taken; [exact Hh|exact Ho|exact Hu|constructor|reflexivity|exact Hn]|cbn; auto].
  - apply content_type_hs in Ht. subst t. destruct (pass_cases C tr c) as [(ms & Hms & -> & _)|[(ms & b & m & j & _ & _ & _ & _ & E)|(ms & j & x & _ & _ & _ & _ & E)]]; [|congruence..].
    exists V_nothing, (k_counter k + 1)%N. split; [eapply ri_taken; [exact Hh|exact Ho|exact Hu|now constructor|reflexivity|exact Hn]|cbn; auto].
  - apply content_type_hs in Ht. subst t. destruct (pass_cases C tr c) as [(ms & _ & _ & E)|[(ms & b & m & j & _ & _ & _ & _ & E)|(ms & j & x & Hms & Ec & Hj & Hun & E)]]; [congruence..|].
    rewrite Hp in E. inversion E. subst x. rewrite Ec in Hu. eapply Hother; [exact Hu|apply ci_garbled; eassumption| |]; [reflexivity|cbn; auto].
  - apply content_type_hs in Ht. subst t. destruct (pass_cases C tr c) as [(ms & _ & _ & E)|[(ms & b & m & j & Hms & Ec & Hun & Hm & E)|(ms & j & x & _ & _ & _ & _ & E)]]; [congruence| |congruence].
    rewrite Ec in Hu. eapply Hother; [exact Hu|eapply ci_message; eassumption| |]; [reflexivity|cbn; auto].
  - apply content_type_alert in Ht. subst t. eapply Hother; [exact Hu|apply ci_bad_alert, bad_of_parse; exact Hp| |]; [reflexivity|cbn; auto].
  - apply content_type_alert in Ht. subst t. eapply Hother; [exact Hu|eapply ci_alert; [apply alert_of_parse; exact Hp|exact Hd]| |]; [reflexivity|cbn; auto].
  - apply content_type_alert in Ht. subst t. eapply Hother; [exact Hu|eapply ci_close; apply alert_of_parse; exact Hp| |]; [reflexivity|cbn; auto].
  - exists (V_panic PUnwrap), (k_counter k). split; [|reflexivity]. destruct Ht as [Ht|[Ht Hp]].
    + apply content_type_data in Ht. subst t. eapply ri_exhausted; [exact Hh|exact Ho|exact Hu|constructor|reflexivity|exact Hn].
    + apply content_type_hs in Ht. subst t. destruct (pass_cases C tr c) as [(ms & Hms & -> & _)|[(ms & b & m & j & _ & _ & _ & _ & E)|(ms & j & x & _ & _ & _ & _ & E)]]; [|congruence..].
      eapply ri_exhausted; [exact Hh|exact Ho|exact Hu|now constructor|reflexivity|exact Hn].
Qed.

Lemma header_type h ct : hdr_content_type h = Ok ct -> exists t, hd_error h = Some t /\ content_type_of (Byte.to_N t) = Some ct.
Proof.
  intros H. destruct h as [|t h']; [discriminate|]. exists t. split; [reflexivity|]. unfold hdr_content_type, index in H.
  cbn [nth_error obind] in H. destruct (content_type_of (Byte.to_N t)); inversion H. reflexivity.
Qed.

Lemma record_verdict C k tr h f o e : fate C k tr h f o e ->
  exists v n', record_is C (k_key k) (k_iv k) (k_counter k) h f v n' /\ amounts v (k_counter k) n' o e.
Proof.
  intros Hf.
  inversion Hf as [Ht|Ht|x Ht Hp Hx|l d Ht Hp Hd|l Ht Hp|x Ht Hp Hx|Ht Hp|m tr' Ht Hp Hm|Ht Ho|inner o' e' Ht Ho Hi]; subst; apply header_type in Ht as (t & Hh & Ht).
  - assert (t = x00) by (destruct t; try discriminate Ht; reflexivity). subst t. do 2 eexists. split; [now apply ri_invalid|cbn; auto].
  - assert (t = ty_ccs) by (destruct t; try discriminate Ht; reflexivity). subst t. do 2 eexists. split; [now apply ri_ccs|cbn; auto].
  - apply content_type_alert in Ht. subst t. do 2 eexists. split; [apply ri_bad_alert; [exact Hh|apply bad_of_parse; exact Hp]|cbn; auto].
  - apply content_type_alert in Ht. subst t. do 2 eexists. split; [eapply ri_alert; [exact Hh|apply alert_of_parse; exact Hp|exact Hd]|cbn; auto].
  - apply content_type_alert in Ht. subst t. do 2 eexists. split; [eapply ri_close; [exact Hh|apply alert_of_parse; exact Hp]|cbn; auto].
  - apply content_type_hs in Ht. subst t. do 2 eexists. split; [apply ri_garbled with (e := x); [exact Hh|]|cbn; auto].
    rewrite at_new in Hp. apply (read_faulty C tr []). destruct (read_server_handshake C tr (at_pos [] f [])) as [oo q]. cbn [fst] in Hp. subst oo. now exists q.
  - apply content_type_hs in Ht. subst t. destruct Hp as [tr' Hp]. rewrite at_new in Hp.
    destruct (read_server_handshake C tr (at_pos [] f [])) as [oo q] eqn:E. cbn [fst] in Hp. subst oo.
    apply read_understood in E as (x & y & m & -> & _ & Hu & Hd & _). pose proof (proj2 (denotes_kind _ _ Hd) eq_refl) as Em.
    subst m. exists V_nothing, (k_counter k). split; [eapply ri_ticket; [exact Hh|reflexivity|exact Hu]|cbn; auto].
  - apply content_type_hs in Ht. subst t. rewrite at_new in Hp.
    destruct (read_server_handshake C tr (at_pos [] f [])) as [oo q] eqn:E. cbn [fst] in Hp. subst oo.
    apply read_understood in E as (x & y & m0 & -> & _ & Hu & Hd & _).
    exists (V_panic PUnimplemented), (k_counter k). split; [eapply ri_message; [exact Hh|reflexivity|exact Hu|]|reflexivity].
    intros ->. apply Hm. now apply (denotes_kind _ _ Hd).
  - apply content_type_data in Ht. subst t. do 2 eexists. split; [now apply ri_forged|cbn; auto].
  - apply content_type_data in Ht. subst t. eapply inner_verdict; eauto.
Qed.

(** ** The bytes of the transport *)

(** In front of a record, or at the end of the transport. *)
Definition settled (s : rdst) : Prop := chunked (rd_rx s) /\ (rd_pending s = 0 \/ rd_rx s = []).

Lemma settled_ready s : rd_wf s -> settled s -> rd_rx s <> [] -> ready s.
Proof. intros Hw [Hc [Hp|Hn]] Hx; [|contradiction]. unfold rd_wf in Hw. repeat split; [exact Hp|lia|exact Hc]. Qed.

Lemma ready_settled s : ready s -> settled s.
Proof. intros (Hp & _ & Hc). split; auto. Qed.

Lemma drained_read C s : rd_rx s = [] -> exists s', rd_read C s = (Err IoError, s') /\ rd_rx s' = [].
Proof.
  intros H. destruct (header_loop_chunked 6 [] []) as [_ H1]; [cbn; lia|cbn; lia|constructor|].
  unfold rd_read, next_record_header. unfold bind at 1, on_rx at 1. unfold bind at 1. rewrite H, H1 by (cbn; lia).
  eexists. split; [reflexivity|]. reflexivity.
Qed.

Lemma stream_nil rx : chunked rx -> stream rx = [] -> rx = [].
Proof.
  intros Hc Hs. destruct Hc as [|e rx (b & -> & Hb) _]; [reflexivity|]. exfalso. unfold stream in Hs. cbn [map concat] in Hs.
  apply app_eq_nil in Hs as [Hs _]. contradiction.
Qed.

(** What the loop returns. *)
Definition outcome_of (k : kstate) (v : verdict) (n' : N) (w' : bytes) (o : outcome tls_error unit) (s' : rdst) (d' : dec_info) (op' : bool) : Prop :=
  match v with
  | V_panic x => o = Panic x
  | _ =>
      settled s' /\ stream (rd_rx s') = w' /\ k_counter (r_state (rd_ks s')) = n' /\
      k_key (r_state (rd_ks s')) = k_key k /\ k_iv (r_state (rd_ks s')) = k_iv k /\
      match v with
      | V_data x => o = Ok tt /\ unread_of s' d' = x /\ op' = true
      | V_error e => o = Err e /\ op' = true
      | V_closed => o = Err ConnectionClosed /\ op' = false
      | _ => False
      end
  end.

(** The next record that counts, for the loop of [read_buffered]. *)
Lemma fill_hears C W : crypto_ok C -> forall fuel s d o s' d' op', rinv C W s d -> settled s -> unread_of s d = [] -> rx_size (rd_rx s) < fuel ->
  fill_loop C fuel (s, (d, true)) = (o, (s', (d', op'))) ->
  let k := r_state (rd_ks s) in
  exists v n' w', hears C (k_key k) (k_iv k) (length (rd_buf s)) (k_counter k) (stream (rd_rx s)) v n' w' /\ passed v = false /\
    outcome_of k v n' w' o s' d' op'.
Proof.
  intros HC. induction fuel as [|fuel IH]; intros s d o s' d' op' Hr Hset Hu Hf H k; [lia|].
  rewrite (fill_empty C W fuel s d true Hr Hu) in H.
  (* reading fails *)
  assert (Hfail : forall e s1, rd_read C s = (Err e, s1) -> settled s1 -> o = Err e /\ s' = s1 /\ op' = true /\ r_state (rd_ks s1) = k).
  { intros e s1 E Hs1. unfold bind at 1 in H. unfold read_application_data, bind at 1, on_fst at 1 in H. cbn [fst snd] in H. rewrite E in H.
    apply pair_equal_spec in H as [<- H]. apply pair_equal_spec in H as [<- H]. apply pair_equal_spec in H as [<- <-]. repeat (split; [reflexivity|]).
    destruct Hr as (Hw & _). destruct (rd_read_any C s _ s1 Hw E) as (_ & _ & _ & [(_ & Hk & _)|(h & f & _ & Hd)]); [unfold k; now rewrite Hk|].
    destruct (sr_decode _ _ _ _ _) as [rt|e'|x| |]; try contradiction; destruct Hd as [Hd Hk]; [discriminate|]. unfold k. now rewrite Hk. }
  assert (Herr : forall e s1 w', rd_read C s = (Err e, s1) -> settled s1 -> stream (rd_rx s1) = w' ->
    hears C (k_key k) (k_iv k) (length (rd_buf s)) (k_counter k) (stream (rd_rx s)) (V_error e) (k_counter k) w' ->
    exists v n' w', hears C (k_key k) (k_iv k) (length (rd_buf s)) (k_counter k) (stream (rd_rx s)) v n' w' /\ passed v = false /\
    outcome_of k v n' w' o s' d' op').
  { intros e s1 w' E Hs1 Hw' Hh. destruct (Hfail e s1 E Hs1) as (-> & -> & -> & Hk). exists (V_error e), (k_counter k), w'. unfold outcome_of. rewrite Hk. auto 10. }
  pose proof Hr as (Hw & Hiv & Hdok & Htr).
  assert (Hend : rd_rx s = [] \/ rd_rx s <> []) by (destruct (rd_rx s); [now left|right; discriminate]).
  destruct Hend as [Hend|Hend].
  { destruct (drained_read C s Hend) as (s1 & E & Hs1). apply (Herr IoError s1 []); [exact E|split; [rewrite Hs1; constructor|now right]|now rewrite Hs1|].
    rewrite Hend. apply he_header. cbn. lia. }
  pose proof (settled_ready s Hw Hset Hend) as Hrd.
  destruct (lt_dec (length (stream (rd_rx s))) 5) as [Hl|Hl].
  { destruct (ready_short C s Hrd Hl) as (s1 & E & Hs1 & _). apply (Herr IoError s1 []); [exact E|split; [rewrite Hs1; constructor|now right]|now rewrite Hs1|].
    now apply he_header. }
  destruct (reading_cases (length (rd_buf s)) (stream (rd_rx s))) as [(e & He)|(h & f & rest & Ew & Hfr & Hty & Hlf)].
  { inversion He as [w0 Hl0|h w0 Hh Ht Ew|h n w0 Hh Ht Hn Hlt Ew|h n w0 Hh Ht Hn Hle Hlt Ew]; [lia|..]; symmetry in Ew; subst e; rewrite <- Ew.
    - destruct (ready_badtype C s h w0 Hrd Ew Hh) as (rx' & Hrx & Hch & E); [intros Hk; apply Ht; now apply known_type_inv|].
      eapply Herr; [exact E|split; [exact Hch|now left]|exact Hrx|]. rewrite Ew. now apply he_type.
    - destruct (ready_toolong C s h w0 n Hrd Ew Hh) as (rx' & Hrx & Hch & E); auto using type_known_ok, header_content.
      eapply Herr; [exact E|split; [exact Hch|now left]|exact Hrx|]. rewrite Ew. now apply he_long with n.
    - destruct (ready_cut C s h w0 n Hrd Ew Hh) as (s1 & E & Hs1 & _); auto using type_known_ok, header_content.
      apply (Herr IoError s1 []); [exact E|split; [rewrite Hs1; constructor|now right]|now rewrite Hs1|]. rewrite Ew. now apply he_cut with n. }
  destruct (rad_frame C W s d true h f rest HC Hr Hrd Ew Hfr (type_known_ok h (proj1 Hfr) Hty) Hlf)
    as (o1 & s1 & d1 & op1 & e & R1 & R2 & R3 & R4 & R5 & R6 & R7 & R8 & R9).
  fold k in R8, R9. destruct (record_verdict C k _ h f o1 e R8) as (v & n1 & Hv & Ha).
  assert (Hrb : readable (length (rd_buf s)) (h, f)) by (split; [exact Hfr|]; split; [exact Hty|exact Hlf]).
  unfold bind at 1 in H. rewrite R1 in H. rewrite Ew.
  assert (Hiv1 : k_key (r_state (rd_ks s1)) = k_key k /\ k_iv (r_state (rd_ks s1)) = k_iv k /\ (o1 <> Panic PUnwrap -> e <> Dead)) by
    (destruct e; cbn [effect_on] in R9; destruct R9 as [-> R9]; (split; [reflexivity|]; split; [reflexivity|]); try discriminate; inversion R8; subst; try discriminate; 
     match goal with X : inner_fate _ _ _ _ _ _ |- _ => inversion X; subst end; contradiction || congruence).
  destruct Hiv1 as (Hk1 & Hi1 & _).
  (* the loop goes on *)
  assert (Hgo : o1 = Ok tt -> op1 = true -> passed v = true -> k_counter (r_state (rd_ks s1)) = n1 -> dec_ok s1 d1 -> unread_of s1 d1 = [] ->
    exists v n' w', hears C (k_key k) (k_iv k) (length (rd_buf s)) (k_counter k) (h ++ f ++ rest) v n' w' /\ passed v = false /\
    outcome_of k v n' w' o s' d' op').
  { intros -> -> Hp Hn1 Hdok1 Hu1. specialize (R7 eq_refl).
    assert (Hr1 : rinv C W s1 d1) by (split; [exact R6|]; split; [rewrite Hi1; exact Hiv|]; split; [exact Hdok1|exact R5]).
    destruct (IH s1 d1 o s' d' op' Hr1 (ready_settled s1 R2) Hu1 ltac:(lia) H) as (v' & n' & w' & Hh & Hp' & Hres).
    cbv zeta in Hh, Hres. rewrite Hk1, Hi1, Hn1, R4, R3 in Hh. unfold outcome_of in *. rewrite Hk1, Hi1 in Hres. exists v', n', w'. split; [|auto].
    eapply he_next; eauto. }
  assert (Hdok1 : d1 = d -> dec_ok s1 d1) by (intros ->; destruct Hdok; split; [assumption|rewrite R4; assumption]).
  assert (Hu1 : d1 = d -> unread_of s1 d1 = []).
  { intros ->. assert (E : d_len d = d_consumed d) by (apply (unread_nil C W s d); [split; auto|exact Hu]).
    unfold unread_of. now rewrite E, Nat.sub_diag. }
  destruct v as [x| |x| |x]; cbn [amounts] in Ha.
  - (* data *) destruct Ha as (-> & -> & ->). cbn [effect_on] in R9. destruct R9 as (E1 & -> & E3 & E4 & E5 & E6).
    assert (Hn1 : k_counter (r_state (rd_ks s1)) = (k_counter k + 1)%N) by now rewrite E1.
    destruct x as [|b x]; [apply Hgo; auto|].
    assert (Hr1 : rinv C W s1 d1) by (split; [exact R6|]; split; [rewrite Hi1; exact Hiv|]; split; [exact E5|exact R5]).
    rewrite (fill_nonempty C W fuel s1 d1 true Hr1) in H by (rewrite E6; discriminate).
    apply pair_equal_spec in H as [<- H]. apply pair_equal_spec in H as [<- H]. apply pair_equal_spec in H as [<- <-].
    exists (V_data (b :: x)), (k_counter k + 1)%N, rest. split; [now apply he_record|]. split; [reflexivity|].
    unfold outcome_of. split; [now apply ready_settled|]. auto 10.
  - (* nothing *) destruct Ha as (-> & Ha). apply Hgo; destruct Ha as [(-> & ->)|(-> & ->)]; cbn [effect_on] in R9; destruct R9 as (E1 & E2 & E3); auto; now rewrite E1.
  - (* error *) destruct Ha as (-> & -> & ->). cbn [effect_on] in R9. destruct R9 as (E1 & -> & ->).
    apply pair_equal_spec in H as [<- H]. apply pair_equal_spec in H as [<- H]. apply pair_equal_spec in H as [<- <-].
    exists (V_error x), (k_counter k), rest. split; [now apply he_record|]. split; [reflexivity|]. unfold outcome_of. split; [now apply ready_settled|]. rewrite E1. auto 10.
  - (* closed *) destruct Ha as (-> & -> & ->). cbn [effect_on] in R9. destruct R9 as (E1 & -> & ->).
    apply pair_equal_spec in H as [<- H]. apply pair_equal_spec in H as [<- H]. apply pair_equal_spec in H as [<- <-].
    exists V_closed, (k_counter k), rest. split; [now apply he_record|]. split; [reflexivity|]. unfold outcome_of. split; [now apply ready_settled|]. rewrite E1. auto 10.
  - (* panic *) subst o1. apply pair_equal_spec in H as [<- H]. exists (V_panic x), n1, rest. split; [now apply he_record|]. split; reflexivity.
Qed.

(** ** Calls *)

(** A connection as the machine sees it. *)
Definition mirrors (C : crypto) (W : bytes) (c : conn) : Prop := crinv C W c /\ settled (cn_rd c).

Definition same_session (c c' : conn) : Prop := read_key c' = read_key c /\ read_iv c' = read_iv c /\ room c' = room c.

Lemma step_here C W c o r c' : crypto_ok C -> crinv C W c -> receives o = true -> step C o c = (r, c') -> cn_opened c = true -> unread c <> [] ->
  succeeds r /\ cn_rd c' = cn_rd c /\ crinv C W c' /\ cn_opened c' = true /\ exists got, take o r (unread c) got (unread c').
Proof.
  intros HC Hc Ho Hst Hop Hu. destruct (recv_step C W c o r c' HC Hc Ho Hst) as (_ & _ & Hres).
  assert (G : exists l got, (unread c <> [] -> l = [] /\ cn_rd c' = cn_rd c /\ (cn_opened c = true -> exists v, r = Ok v)) /\ crinv C W c' /\
      take o r (unread c ++ concat (data_of l)) got (unread c') /\
      (cn_opened c' = cn_opened c \/ cn_opened c' = false /\ r = Err ConnectionClosed /\ ended C W (rkey c) l)).
  { destruct r as [v|e|x| |]; try contradiction.
    - destruct Hres as (l & g & _ & _ & R3 & _ & R5 & R6 & R7). exists l, g. auto.
    - destruct Hres as (l & g & _ & _ & R3 & _ & R5 & R6 & R7). exists l, g. auto.
    - destruct Hres as [Hres _]. congruence.
    - destruct Hres as (l & g & _ & _ & R3 & _ & R5 & R6 & R7). exists l, g. auto. }
  destruct G as (l & g & G1 & G2 & G3 & G4). destruct (G1 Hu) as (-> & E1 & E2). destruct (E2 Hop) as [v Ev].
  rewrite app_nil_r in G3. split; [now exists v|]. split; [exact E1|]. split; [exact G2|]. split; [|eauto].
  destruct G4 as [G4|(_ & G4 & _)]; congruence.
Qed.

Lemma step_over C o c : waits o = true -> cn_opened c = false -> step C o c = (Err MissingHandshake, c).
Proof.
  intros Hw Hop. destruct (step_waits C o c Hw) as (A & m & g & Hst). rewrite Hst. unfold bind at 1, on_rh. rewrite Hop.
  unfold bind at 1, rh_read_buffered, bind at 1, get at 1. cbn [fst snd]. unfold fail.
  replace (mk_conn (cn_rd c) (cn_dec c) (cn_wh c) (cn_shared c) false) with c; [reflexivity|]. rewrite <- Hop. now destruct c.
Qed.

Lemma step_fill_other C c o x s d opn : waits o = true -> cn_opened c = true ->
  fill_loop C (S (rx_size (rd_rx (cn_rd c)))) (cn_rd c, (cn_dec c, true)) = (Panic x, (s, (d, opn))) ->
  fst (step C o c) = Panic x.
Proof.
  intros Ho Hop Hf. destruct (step_waits C o c Ho) as (A & m & g & Hst). rewrite Hst.
  unfold bind at 1. unfold on_rh. rewrite Hop. unfold bind at 1. unfold rh_read_buffered, bind at 1, get at 1. cbn [fst snd].
  unfold bind at 1. rewrite Hf. reflexivity.
Qed.

Lemma receiver_same c c' : cn_rd c' = cn_rd c -> cn_opened c' = cn_opened c ->
  receiver_of c' = mk_receiver (q_open (receiver_of c)) (unread c') (q_next (receiver_of c)) (q_wire (receiver_of c)).
Proof. intros E1 E2. unfold receiver_of, next_seq, incoming. cbn [q_open q_next q_wire]. now rewrite E1, E2. Qed.

Lemma machine_step C W c o r c' : crypto_ok C -> mirrors C W c -> receives o = true -> step C o c = (r, c') ->
  (exists x, r = Panic x /\ forall s, receive C (read_key c) (read_iv c) (room c) (receiver_of c) o r s) \/
  receive C (read_key c) (read_iv c) (room c) (receiver_of c) o r (receiver_of c') /\ mirrors C W c' /\ same_session c c' /\
    returned (o, r).
Proof.
  intros HC [Hc Hset] Ho H.
  destruct (waits o) eqn:Ew.
  2:{ right. destruct (step_nowait C W c o r c' Hc Ho Ew H) as ([v Hv] & E1 & E2).
      destruct (recv_step C W c o r c' HC Hc Ho H) as (_ & _ & Hres). rewrite Hv in Hres |- *.
      destruct Hres as (l & g & _ & R2 & R3 & _ & _ & R6 & _).
      assert (l = []).
      { unfold rkey in R2. rewrite E1 in R2. apply (f_equal k_counter) in R2. cbn [kadv k_counter] in R2. destruct l; [reflexivity|cbn [length] in R2; lia]. }
      subst l. cbn [map data_of filter concat] in R6. rewrite app_nil_r in R6. split.
      - rewrite (receiver_same c c' E1 E2). eapply rc_here; [now right|now exists v|exact R6].
      - unfold mirrors, same_session, read_key, read_iv, room. rewrite E1. repeat split; assumption || exact (proj1 Hset) || exact (proj2 Hset) || apply R3. }
  destruct (cn_opened c) eqn:Eop.
  2:{ right. rewrite (step_over C o c Ew Eop) in H. apply pair_equal_spec in H as [<- <-]. split; [|split; [split; assumption|repeat split]].
      apply rc_over; [exact Eop|exact Ew]. }
  destruct (unread c) as [|b0 q0] eqn:Eu.
  2:{ right. destruct (step_here C W c o r c' HC Hc Ho H Eop) as ((v & Hv) & E1 & E2 & E3 & got & Ht); [rewrite Eu; discriminate|].
      split; [rewrite (receiver_same c c' E1) by congruence; eapply rc_here; [left; split; [exact Eop|cbn [receiver_of q_data]; rewrite Eu; discriminate]|now exists v|exact Ht]|].
      unfold mirrors, same_session, read_key, read_iv, room. rewrite E1. split; [split; assumption|]. split; [auto|]. now rewrite Hv. }
  destruct (fill_loop C (S (rx_size (rd_rx (cn_rd c)))) (cn_rd c, (cn_dec c, true))) as [o1 [s1 [d1 op1]]] eqn:Ef.
  destruct (fill_hears C W HC _ _ _ _ _ _ _ Hc Hset Eu (Nat.lt_succ_diag_r _) Ef) as (v & n' & w' & Hh & Hp & Hres).
  pose proof (fill_any C W HC _ _ _ _ _ _ _ _ Hc (Nat.lt_succ_diag_r _) Ef) as Hany.
  assert (Ers : receiver_of c = mk_receiver true [] (k_counter (r_state (rd_ks (cn_rd c)))) (stream (rd_rx (cn_rd c)))) by (unfold receiver_of; now rewrite Eop, Eu).
  assert (Hrec : forall c1, cn_rd c1 = s1 -> stream (rd_rx s1) = w' -> k_counter (r_state (rd_ks s1)) = n' -> receiver_of c1 = mk_receiver (cn_opened c1) (unread c1) n' w').
  { intros c1 <- <- <-. reflexivity. }
  destruct v as [x| |x| |x]; cbn [outcome_of] in Hres.
  - right. destruct Hres as (R1 & R2 & R3 & R4 & R5 & -> & R7 & ->).
    assert (Hx : x <> []) by (destruct x; [discriminate Hp|discriminate]).
    cbn [filled] in Hany. destruct Hany as (l & _ & _ & Hr1 & Hb1 & _).
    assert (Hu1 : unread_of s1 d1 <> []) by (rewrite R7; exact Hx).
    rewrite (step_filled C W c o s1 d1 0 Ew Eop) in H; [|rewrite Ef; symmetry; exact (fill_nonempty C W 0 s1 d1 true Hr1 Hu1)|exact Hr1|exact Hu1].
    destruct (step_here C W (with_rd c s1 d1 true) o r c' HC Hr1 Ho H eq_refl Hu1) as ((v & Hv) & E1 & E2 & E3 & got & Ht). cbn [with_rd cn_rd] in E1.
    rewrite Ers, (Hrec c' E1 R2 R3), E3. split.
    + eapply rc_data; [exact Ew|exact Hh|now exists v|]. rewrite <- R7. exact Ht.
    + unfold mirrors, same_session, read_key, read_iv, room. rewrite E1. split; [split; assumption|]. split; [auto|]. now rewrite Hv.
  - discriminate Hp.
  - right. destruct Hres as (R1 & R2 & R3 & R4 & R5 & -> & ->).
    cbn [filled] in Hany. destruct Hany as (l & _ & _ & Hr1 & Hb1 & _ & _ & _ & _ & _ & Hu1). specialize (Hu1 ltac:(discriminate)).
    rewrite (step_fill_err C c o x s1 d1 true Ew Eop Ef) in H. apply pair_equal_spec in H as [<- <-].
    rewrite Ers, (Hrec (with_rd c s1 d1 true) eq_refl R2 R3). split.
    + assert (Eu1 : unread (with_rd c s1 d1 true) = []) by exact Hu1. rewrite Eu1. eapply rc_error; [exact Ew|exact Hh].
    + split; [split; assumption|]. split; [repeat split; assumption|exact I].
  - right. destruct Hres as (R1 & R2 & R3 & R4 & R5 & -> & ->).
    cbn [filled] in Hany. destruct Hany as (l & _ & _ & Hr1 & Hb1 & _ & _ & _ & _ & _ & Hu1). specialize (Hu1 ltac:(discriminate)).
    rewrite (step_fill_err C c o ConnectionClosed s1 d1 false Ew Eop Ef) in H. apply pair_equal_spec in H as [<- <-].
    rewrite Ers, (Hrec (with_rd c s1 d1 false) eq_refl R2 R3). split.
    + assert (Eu1 : unread (with_rd c s1 d1 false) = []) by exact Hu1. rewrite Eu1. eapply rc_closed; [exact Ew|exact Hh].
    + split; [split; assumption|]. split; [repeat split; assumption|exact I].
  - left. exists x. subst o1. pose proof (step_fill_other C c o x s1 d1 op1 Ew Eop Ef) as E. rewrite H in E. cbn [fst] in E. subst r.
    split; [reflexivity|]. intros s. rewrite Ers. eapply rc_panic; [exact Ew|exact Hh].
Qed.

Lemma machine_other C W c o r c' : mirrors C W c -> receives o = false -> is_close o = false -> step C o c = (r, c') ->
  receiver_of c' = receiver_of c /\ mirrors C W c' /\ same_session c c'.
Proof.
  intros [Hc Hset] Ho Hcl H. destruct (other_step C c o r c' Ho Hcl H) as (E1 & E2 & E3).
  unfold receiver_of, mirrors, same_session, crinv, unread, next_seq, incoming, read_key, read_iv, room. rewrite E1, E2, E3. repeat split; apply Hc || apply Hset.
Qed.

Theorem machine_run C W : crypto_ok C -> forall ops c rs c', mirrors C W c -> run C ops c = (rs, c') ->
  exists s', listens C (read_key c) (read_iv c) (room c) (receiver_of c) rs s' /\
    (forallb (fun o => negb (is_close o)) ops = true -> Forall returned rs -> s' = receiver_of c').
Proof.
  intros HC. induction ops as [|o ops IH]; intros c rs c' Hm H.
  { cbn in H. apply pair_equal_spec in H as [<- <-]. exists (receiver_of c). split; [constructor|auto]. }
  destruct (step C o c) as [r c1] eqn:E. rewrite (run_cons' C o ops c r c1 E) in H.
  destruct (receives o) eqn:Ho.
  - assert (Hcl : is_close o = false) by (destruct o; try discriminate; reflexivity).
    destruct (machine_step C W c o r c1 HC Hm Ho E) as [(x & -> & Hx)|(Hr & Hm1 & (S1 & S2 & S3) & Hret)].
    + assert (Es : stops o (Panic x) = true) by (destruct o; reflexivity). rewrite Es in H. apply pair_equal_spec in H as [<- <-].
      exists (receiver_of c). split; [apply (ls_receive C _ _ _ _ o (Panic x) (receiver_of c)); [exact Ho|apply Hx|auto|constructor]|].
      intros _ Hall. inversion Hall as [|? ? Hn _]. contradiction.
    + rewrite (returned_stops o r Hcl Hret) in H. destruct (run C ops c1) as [rs1 c2] eqn:E1. cbn [fst snd] in H. apply pair_equal_spec in H as [<- <-].
      destruct (IH c1 rs1 c2 Hm1 E1) as (s' & Hl & Hs'). rewrite S1, S2, S3 in Hl. exists s'. split.
      * apply (ls_receive C _ _ _ _ o r (receiver_of c1)); [exact Ho|exact Hr| |exact Hl]. intros x ->. contradiction.
      * cbn [forallb]. rewrite Hcl. cbn [negb andb]. intros Hc0 Hall. apply Forall_cons_iff in Hall as [_ Hall]. auto.
  - destruct (is_close o) eqn:Hcl.
    + assert (Es : stops o r = true) by (destruct o; try discriminate; reflexivity). rewrite Es in H. apply pair_equal_spec in H as [<- <-].
      exists (receiver_of c). split; [apply ls_other; [exact Ho|constructor]|]. cbn [forallb]. rewrite Hcl. discriminate.
    + destruct (machine_other C W c o r c1 Hm Ho Hcl E) as (Er & Hm1 & S1 & S2 & S3).
      destruct (stops o r) eqn:Es.
      * apply pair_equal_spec in H as [<- <-]. exists (receiver_of c). split; [apply ls_other; [exact Ho|constructor]|]. auto.
      * destruct (run C ops c1) as [rs1 c2] eqn:E1. cbn [fst snd] in H. apply pair_equal_spec in H as [<- <-].
        destruct (IH c1 rs1 c2 Hm1 E1) as (s' & Hl & Hs'). rewrite S1, S2, S3, Er in Hl. exists s'. split; [now apply ls_other|].
        cbn [forallb]. rewrite Hcl. cbn [negb andb]. intros Hc0 Hall. apply Forall_cons_iff in Hall as [_ Hall]. auto.
Qed.
