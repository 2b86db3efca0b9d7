(** * C67: how [open] ends, in every case *)
From Coq Require Import String List NArith Arith Bool Lia ZArith.
From Coq.Strings Require Import Byte.
From Coq Require Import ZifyBool ZifyNat ZifyN.
From Verif Require Import Base ParseBuffer Buffer Codes Extensions Crypto KeySchedule Config Handshake Record WriteBuffer
  Transport RecordReader ReadBuffer Connection Api BaseProofs SpecWire SpecCodes SpecMessages WireProofs SpecKeys SpecRecord SpecSend SpecRead SpecHandshake
  SpecHello PropHello SpecOpen SpecComplete RecordProofs HsWrite HsProofs FlightProofs CompleteProofs PropComplete SpecFailure FailureProofs CaseProofs PropFailure SpecAnswer AnswerProofs
  Toy ToyRun ToyServer PropPanic.
Import ListNotations.
Local Open Scope list_scope.

(** After a complete flight of the server [open] ends as [answer_ends] tells, and it has sent the
    ClientHello and then, protected with the client's handshake keys and numbered from 0, the records that
    [answer_ends] tells. *)
Theorem C67_answer : forall V C (p : provider V) cfg wbuf tx v v0, crypto_ok C -> length (p_random p) = 32 ->
  hello_size cfg (length (c_pub C (p_secret p))) (hash_len C) <= length wbuf ->
  Forall (eq WrOk) (tx_wr tx) -> Forall (eq FlOk) (tx_fl tx) -> told p cfg v v0 ->
  exists hello,
    (forall rbuf rx c0, cn_new C rbuf wbuf rx tx = Ok c0 ->
       exists evs, sent_log (snd (cn_open C p cfg v c0)) = tx_log tx ++ goes_out (SpecHandshake.hello_record hello) ++ evs) /\
    forall rbuf rx c0 x rest v1, cn_new C rbuf wbuf rx tx = Ok c0 -> chunked rx ->
      x_hello x = hello -> whole_flight C (length rbuf) (stream rx) x rest ->
      secrets_ok C (option_map fst (cfg_psk cfg)) (p_secret p) x -> finishes C x ->
      (p_has_verifier p = true -> accepts_all p (x_hellos x) (x_msgs x) v0 v1) ->
      exists o out c, answer_ends C p (length wbuf) (x_client x) (x_hellos x ++ raw (x_msgs x)) (answered x) o out /\
        cn_open C p cfg v c0 = (o, c) /\
        sent_log c = tx_log tx ++ goes_out (SpecHandshake.hello_record hello) ++ protected_records C (x_ckey x) (x_civ x) 0 out.
Proof.
  intros V C p cfg wbuf tx v v0 HC Hrnd Hsz Hwr Hfl Htold.
  destruct (hello_goes C p cfg wbuf tx HC Hrnd Hsz (conj Hwr Hfl)) as (hello & Hh). exists hello. destruct (Hh v v0 Htold) as [Hsent Hgo]. split; [exact Hsent|].
  intros rbuf rx c0 x rest v1 Hnew Hch Hhello Hwf Hsec Hfin Hacc.
  destruct (Hgo rbuf rx c0 x rest v1 Hnew Hch Hhello Hwf Hsec Hfin Hacc) as (s & c & h & Hg & Hcs & Htr & Hst & Hlog & _ & _ & _ & Hs & Hkm).
  assert (H9 : 9 <= length wbuf) by (destruct (cn_new_idle C rbuf wbuf rx tx c0 Hnew) as (_ & _ & _ & _ & _ & _ & _ & H9); lia).
  assert (H : exists o out, answer_ends C p (length wbuf) (x_client x) (tr_of c) (answered x) o out /\
    ends C p cfg s c h o (protected_records C (x_ckey x) (x_civ x) 0 out)).
  { destruct (answered x) as [ctx|].
    - destruct Hs as (-> & Hcr & Ek). apply certificate_phase; auto.
      intros k K1 K2. destruct (Hkm k K1 ltac:(congruence)) as (k3 & Hk3 & _). eauto.
    - destruct Hs as (-> & Htraf).
      destruct (finish_phase C p cfg (length wbuf) c h (x_client x) (x_ckey x) (x_civ x) 0%N (key_messages x) HC H9) as (o & out & Ho & He); auto.
      { destruct Hcs as (A & B & D). split; [exact A|]. split; [exact B|]. lia. }
      { intros k K1 K2. destruct (Hkm k K1 K2) as (k3 & Hk3 & _). eauto. }
      exists o, out. split; [now apply ae_none|exact He]. }
  destruct H as (o & out & Ho & He). rewrite Htr in Ho.
  destruct (answer_open C p cfg v v0 rbuf wbuf rx tx c0 s c h o _ HC Hnew Htold Hg He) as (c' & Hop & Hl).
  exists o, out, c'. split; [exact Ho|]. split; [exact Hop|]. rewrite Hl, Hlog, Hhello. now rewrite <- app_assoc.
Qed.

(** [answer_ends] leaves nothing open. *)
Lemma no_space_one e L m o o' : no_space e L m o -> no_space e L m o' -> o = o'.
Proof. intros H H'. destruct H, H'; try lia; reflexivity. Qed.

Lemma no_space_room e L m o : no_space e L m o -> has_room L m -> False.
Proof. unfold has_room. intros H. destruct H; lia. Qed.

Lemma finish_one C L client tr o out o' out' : finish_ends C L client tr o out -> finish_ends C L client tr o' out' ->
  out = out' /\ o = o'.
Proof.
  intros H H'. destruct H as [v Hv Hr|v o Hv Hn]; destruct H' as [v' Hv' Hr'|v' o' Hv' Hn'];
    (assert (v' = v) by congruence; subst v'); try (exfalso; eapply no_space_room; eassumption).
  - split; reflexivity.
  - split; [reflexivity|]. eapply no_space_one; eassumption.
Qed.

Lemma signature_one V C (p : provider V) L client tr o out o' out' : signature_ends C p L client tr o out -> signature_ends C p L client tr o' out' ->
  out = out' /\ o = o'.
Proof.
  intros H H'; destruct H; inversion H'; subst;
  repeat match goal with
  | A : p_signer p = Ok _, B : p_signer p = Ok _ |- _ => rewrite A in B; apply ok_pair_inj in B as [? ?]; subst
  | A : p_signer p = _, B : p_signer p = _ |- _ => rewrite A in B; first [discriminate B | injection B as <- | clear B]
  | A : ?f ?m = Some _, B : ?f ?m = _ |- _ => rewrite A in B; first [discriminate B | injection B as <- | clear B]
  end; try (exfalso; lia); try congruence;
  try (exfalso; eapply no_space_room; eassumption); try (split; reflexivity).
  - match goal with A : finish_ends _ _ _ _ o _, B : finish_ends _ _ _ _ o' _ |- _ => destruct (finish_one _ _ _ _ _ _ _ _ A B) as [<- ?] end. auto.
  - split; [reflexivity|]. eapply no_space_one; eassumption.
Qed.

Theorem C67_one : forall V C (p : provider V) L client tr req o out o' out',
  answer_ends C p L client tr req o out -> answer_ends C p L client tr req o' out' -> out = out' /\ o = o'.
Proof.
  intros V C p L client tr req o out o' out' H H'. destruct H; inversion H'; subst;
  repeat match goal with
  | A : p_client_cert p = _, B : p_client_cert p = _ |- _ => rewrite A in B; first [discriminate B | injection B as <- | clear B]
  end; try (exfalso; lia); try (exfalso; eapply no_space_room; eassumption); try (split; reflexivity).
  - eapply finish_one; eassumption.
  - match goal with A : finish_ends _ _ _ _ o _, B : finish_ends _ _ _ _ o' _ |- _ => destruct (finish_one _ _ _ _ _ _ _ _ A B) as [<- ?] end. auto.
  - split; [reflexivity|]. eapply no_space_one; eassumption.
  - match goal with A : signature_ends _ _ _ _ _ o _, B : signature_ends _ _ _ _ _ o' _ |- _ => destruct (signature_one _ _ _ _ _ _ _ _ _ _ A B) as [<- ?] end. auto.
  - split; [reflexivity|]. eapply no_space_one; eassumption.
Qed.

(** ** From the cases of C53 to a whole flight *)

Lemma taken_parts V C (p : provider V) t : forall ms tr v v', messages_taken C p t tr v ms v' ->
  Forall (fun m => understood C (fst m) (snd m) /\ in_flight (snd m)) ms /\
  (p_has_verifier p = true -> accepts_all p tr ms v v') /\
  forall pre b vd post, ms = pre ++ (b, M_Finished vd) :: post -> rfc_verify_data C t (tr ++ raw pre) = Some vd.
Proof.
  intros ms tr v v' H. induction H as [tr v|tr v b m v1 ms v2 Hm H IH].
  - split; [constructor|]. split; [constructor|]. intros pre b vd post E. destruct pre; discriminate.
  - destruct IH as (I1 & I2 & I3). destruct Hm as (U & F & Hm). split; [constructor; [split; assumption|exact I1]|]. split.
    + intros Hv. specialize (I2 Hv). rewrite Hv in Hm.
      destruct m; try (subst v1; apply aa_other; [exact I|exact I2]).
      * eapply aa_cert; eassumption.
      * destruct Hm as (sch & <- & Hm). eapply aa_verify; eassumption.
      * destruct Hm as [_ ->]. apply aa_other; [exact I|exact I2].
    + intros pre b' vd post E. destruct pre as [|q pre]; cbn [app] in E.
      * injection E as -> -> ->. unfold raw. cbn [map concat]. rewrite app_nil_r. exact (proj1 Hm).
      * injection E as <- E. change (raw ((b, m) :: pre)) with (b ++ raw pre). rewrite app_assoc. eapply I3; exact E.
Qed.

Lemma last_one (ms : list (bytes * smsg)) : (exists m, In m ms /\ is_finished (snd m)) ->
  exists a b vd post, ms = a ++ (b, M_Finished vd) :: post /\ ~ (exists m, In m post /\ is_finished (snd m)).
Proof.
  induction ms as [|[b m] ms IH]; intros (m0 & Hin & Hf); [destruct Hin|].
  assert (Hdec : (exists m, In m ms /\ is_finished (snd m)) \/ ~ (exists m, In m ms /\ is_finished (snd m))).
  { clear. induction ms as [|[b m] ms [(m' & H1 & H2)|IH]].
    - right. intros (m & [] & _).
    - left. exists m'. split; [now right|exact H2].
    - destruct m as [| | | | | |vd]; try (right; intros (m' & [<-|H1] & H2); [exact H2|apply IH; eauto]).
      left. exists (b, M_Finished vd). split; [now left|exact I]. }
  destruct Hdec as [H|H].
  - destruct (IH H) as (a & b' & vd & post & -> & Hp). exists ((b, m) :: a), b', vd, post. auto.
  - destruct Hin as [<-|Hin]; [|exfalso; eauto]. destruct m as [| | | | | |vd]; try contradiction. exists [], b, vd, ms. auto.
Qed.

Lemma carried_framed C key iv n rs ms : carried C key iv n rs ms -> length rs <= length (wire_of rs).
Proof.
  intros H. induction H as [|n h f rs ms Hf|n h m junk rs ms Hf|n h f inner ms1 rs ms Hf]; [cbn; lia|..];
    unfold wire_of in *; cbn [map concat fst snd length]; rewrite !app_length; destruct Hf as [Hf _]; lia.
Qed.

(** What [completes] says in C53 is a whole flight. *)
Lemma completed V C (p : provider V) psk room w x ms n v0 v1 h f rest : (N.of_nat (length w) < 2 ^ 64)%N ->
  begun C p room w x ms n v0 v1 (h ++ f ++ rest) -> secrets_ok C psk (p_secret p) x -> length f <= room -> framed h f ->
  completes C p (x_server x) (x_skey x) (x_siv x) (x_hellos x ++ raw ms) n v1 h f ->
  exists x' v2, x_hello x' = x_hello x /\ whole_flight C room w x' rest /\ secrets_ok C psk (p_secret p) x' /\ finishes C x' /\
    (p_has_verifier p = true -> accepts_all p (x_hellos x') (x_msgs x') v0 v2).
Proof.
  intros Hw (h0 & junk & rs & Ew & Hf0 & Hh0 & Hu & Hsh & Hc & Ht & Hnf & Hfa & En & _) Hsec Hl Hf (ms' & v2 & Hc' & Ht' & Hfin).
  destruct (last_one ms' Hfin) as (a & b & vd & post & Ems & Hpost).
  pose proof (taken_trans C p _ _ _ _ _ _ _ Ht Ht') as Htt.
  destruct (taken_parts V C p _ _ _ _ _ Htt) as (P1 & P2 & P3).
  set (x' := mk_exchange (x_hello x) (x_shello x) (x_suite x) (x_items x) (x_group x) (x_share x) (ms ++ a) b vd post (x_dhe x)
    (x_client x) (x_server x) (x_ckey x) (x_civ x) (x_skey x) (x_siv x)).
  assert (Em : x_msgs x' = ms ++ ms') by (unfold x_msgs, x'; cbn [x_before x_finished x_verify x_after]; rewrite <- app_assoc, <- Ems; reflexivity).
  exists x', v2. split; [reflexivity|]. split; [|split; [exact Hsec|split; [split; [exact Hpost|]|]]].
  - exists h0, junk, rs, (h, f), ms, ms'.
    assert (Hcnt : (protected_in (rs ++ [(h, f)]) < 2 ^ 64)%N).
    { pose proof (protected_le (rs ++ [(h, f)])) as Hp. pose proof (carried_framed _ _ _ _ _ _ Hc) as Hrs.
      assert (Hlw : length (wire_of rs) + 5 <= length w).
      { rewrite Ew. unfold wire_of at 2. cbn [map concat fst snd]. fold (wire_of rs). rewrite !app_length. destruct Hf0 as [Hf0 _]. lia. }
      rewrite app_length in Hp. cbn [length] in Hp. lia. }
    split. { rewrite Ew. unfold wire_of. cbn [map concat]. rewrite map_app, concat_app. cbn [map concat fst snd]. rewrite app_nil_r, <- !app_assoc. reflexivity. }
    do 4 (split; [assumption|]). split; [exact Em|]. split; [exact Hc|]. split; [rewrite <- En; exact Hc'|]. split; [exact Hnf|].
    split; [rewrite Em; exact P1|]. split; [|exact Hcnt].
    inversion Hfa; subst. constructor; [assumption|]. apply Forall_app. split; [assumption|]. constructor; [exact Hl|constructor].
  - rewrite Em. exact P3.
  - rewrite Em. exact P2.
Qed.

(** [open], when all writes succeed and the ClientHello fits the write buffer, always ends in one of the
    ways of [opens_with], and in no other. *)
Theorem C67_open : forall V C (p : provider V) cfg wbuf tx v v0, crypto_ok C -> length (p_random p) = 32 ->
  hello_size cfg (length (c_pub C (p_secret p))) (hash_len C) <= length wbuf ->
  Forall (eq WrOk) (tx_wr tx) -> Forall (eq FlOk) (tx_fl tx) -> told p cfg v v0 ->
  exists hello, forall rbuf rx c0, cn_new C rbuf wbuf rx tx = Ok c0 -> chunked rx -> (N.of_nat (length (stream rx)) < 2 ^ 64)%N ->
    exists o c evs, cn_open C p cfg v c0 = (o, c) /\
      sent_log c = tx_log tx ++ goes_out (SpecHandshake.hello_record hello) ++ evs /\
      opens_with C p (option_map fst (cfg_psk cfg)) (length wbuf) (length rbuf) hello v0 (stream rx) o evs /\
      forall o' evs', opens_with C p (option_map fst (cfg_psk cfg)) (length wbuf) (length rbuf) hello v0 (stream rx) o' evs' -> o' = o /\ evs' = evs.
Proof.
  intros V C p cfg wbuf tx v v0 HC Hrnd Hsz Hwr Hfl Htold.
  destruct (failures C p cfg wbuf tx v v0 HC Hrnd Hsz (conj Hwr Hfl) Htold) as (hello & Hsent & HF).
  destruct (C67_answer V C p cfg wbuf tx v v0 HC Hrnd Hsz Hwr Hfl Htold) as (hello' & Hsent' & HA).
  exists hello. intros rbuf rx c0 Hnew Hch Hlen.
  assert (hello' = hello).
  { destruct (Hsent rbuf rx c0 Hnew) as [e1 E1]. destruct (Hsent' rbuf rx c0 Hnew) as [e2 E2]. rewrite E1 in E2.
    apply app_inv_head in E2. symmetry. exact (goes_out_inj _ _ _ _ E2). }
  subst hello'.
  destruct (HF rbuf rx c0 Hnew Hch) as (F1 & F2 & F4).
  set (W := opens_with C p (option_map fst (cfg_psk cfg)) (length wbuf) (length rbuf) hello v0 (stream rx)).
  assert (U : forall o evs, W o evs -> exists c, cn_open C p cfg v c0 = (o, c) /\ sent_log c = tx_log tx ++ goes_out (SpecHandshake.hello_record hello) ++ evs).
  { intros o evs H. destruct H as [e H|h f rest e E Hf Hl H|x ms n v1 rest e Hx Hbg Hsec H|x ms n v1 h f rest o Hx Hbg Hsec Hf Hl H|x ms n v1 h f rest e Hx Hbg Hsec Hf Hl H|x rest v1 o out Hx Hwf Hsec Hfin Hacc H].
    - rewrite app_nil_r. now apply F1.
    - rewrite app_nil_r. now apply (F2 h f rest e).
    - rewrite app_nil_r. now apply (F4 x ms n v1 rest).
    - destruct (F4 x ms n v1 _ Hx Hbg Hsec) as [_ G]. destruct (G h f rest eq_refl Hf Hl) as [K _]. destruct (K o H) as (c & A & B).
      exists c. split; [exact A|]. rewrite B. destruct o as [[]|[]| | |]; reflexivity.
    - destruct (F4 x ms n v1 _ Hx Hbg Hsec) as [_ G]. destruct (G h f rest eq_refl Hf Hl) as [_ K]. destruct (K e H) as (c & A & B).
      exists c. split; [exact A|]. rewrite B. destruct (Byte.eqb _ _); [destruct e|]; reflexivity.
    - destruct (HA rbuf rx c0 x rest v1 Hnew Hch Hx Hwf Hsec Hfin Hacc) as (o' & out' & c & Ho & A & B).
      destruct (C67_one _ _ _ _ _ _ _ _ _ _ _ H Ho) as [-> ->]. eauto. }
  assert (H : exists o c evs, cn_open C p cfg v c0 = (o, c) /\ sent_log c = tx_log tx ++ goes_out (SpecHandshake.hello_record hello) ++ evs /\ W o evs).
  2:{ destruct H as (o & c & evs & A & B & H). exists o, c, evs. split; [exact A|]. split; [exact B|]. split; [exact H|].
      intros o' evs' H'. destruct (U o' evs' H') as (c' & A' & B'). rewrite A in A'. injection A' as <- <-. rewrite B in B'.
      apply app_inv_head, app_inv_head in B'. auto. }
  clear U. unfold W. clear W.
  destruct (C53_no_other V C p (option_map fst (cfg_psk cfg)) (length rbuf) hello v0 (stream rx) HC Hlen) as [(e & H)|[(h & f & rest & E & Hf & Hl & e & H)|(x & ms & n & v1 & rest & Hx & Hbg & Hsec & H)]].
  - destruct (F1 e H) as (c & A & B). exists (Err e), c, []. split; [exact A|]. split; [now rewrite app_nil_r|]. now apply ow_unreadable.
  - destruct (F2 h f rest e E Hf Hl H) as (c & A & B). exists (Err e), c, []. split; [exact A|]. split; [now rewrite app_nil_r|]. eapply ow_first; eassumption.
  - destruct (F4 x ms n v1 rest Hx Hbg Hsec) as [G1 G2]. destruct H as [(e & H)|(h & f & rest' & -> & Hf & Hl & [(o & H)|[(e & H)|H]])].
    + destruct (G1 e H) as (c & A & B). exists (Err e), c, []. split; [exact A|]. split; [now rewrite app_nil_r|]. eapply ow_stops; eassumption.
    + destruct (G2 h f rest' eq_refl Hf Hl) as [K _]. destruct (K o H) as (c & A & B). exists o, c, (told_peer o). split; [exact A|].
      split; [rewrite B; destruct o as [[]|[]| | |]; reflexivity|]. eapply ow_later; eassumption.
    + destruct (G2 h f rest' eq_refl Hf Hl) as [_ K]. destruct (K e H) as (c & A & B).
      exists (Err e), c, (if Byte.eqb (hd x00 h) ty_data then told_peer (Err e) else []). split; [exact A|].
      split; [rewrite B; destruct (Byte.eqb _ _); [destruct e|]; reflexivity|]. eapply ow_garbled; eassumption.
    + destruct (completed V C p _ _ _ _ _ _ _ _ _ _ _ Hlen Hbg Hsec Hl Hf H) as (x' & v2 & Hx' & Hwf & Hsec' & Hfin & Hacc).
      destruct (HA rbuf rx c0 x' rest' v2 Hnew Hch ltac:(congruence) Hwf Hsec' Hfin Hacc) as (o & out & c & Ho & A & B).
      exists o, c, (protected_records C (x_ckey x') (x_civ x') 0 out). split; [exact A|]. split; [exact B|].
      eapply ow_answer; [congruence|eassumption..].
Qed.

(** ** Concrete cases *)

(** Clients that differ in their certificate, in what signs, and in the room for the signature; the server
    of ToyServer.v asks all of them for a certificate. *)
Definition answering (cc : option cert_entry) (sg : outcome tls_error ((bytes -> option bytes) * sig_scheme)) (cap : nat) : provider unit :=
  mk_provider toy_random toy_secret false (fun _ v => (Ok tt, v)) (fun _ _ v => (Ok tt, v)) (fun _ v => (Ok tt, v)) cc sg cap.

Lemma answering_hello cc sg cap c0 : cn_new toy (zeros 400) (zeros 300) [] silent = Ok c0 ->
  exists evs, sent_log (snd (cn_open toy (answering cc sg cap) small_config tt c0)) = goes_out (SpecHandshake.hello_record (x_hello full_exchange)) ++ evs.
Proof.
  intros H. exists [].
  assert (E : match cn_new toy (zeros 400) (zeros 300) [] silent with Ok c0 => Some (sent_log (snd (cn_open toy (answering cc sg cap) small_config tt c0))) | _ => None end =
    Some (goes_out (SpecHandshake.hello_record (x_hello full_exchange)) ++ [])) by (vm_compute; reflexivity).
  rewrite H in E. congruence.
Qed.

Lemma answering_ends cc sg cap : exists o out c,
  answer_ends toy (answering cc sg cap) 300 (x_client full_exchange) (x_hellos full_exchange ++ raw (x_msgs full_exchange)) (Some [x07; x08]) o out /\
  cn_open toy (answering cc sg cap) small_config tt full_start = (o, c) /\
  sent_log c = goes_out (SpecHandshake.hello_record (x_hello full_exchange)) ++ protected_records toy (x_ckey full_exchange) (x_civ full_exchange) 0 out.
Proof.
  destruct full_hypotheses as (_ & Hstr & Hsz & _ & Hsec & Hfin & _).
  destruct (C67_answer unit toy (answering cc sg cap) small_config (zeros 300) silent tt tt toy_ok eq_refl Hsz (Forall_nil _) (Forall_nil _) eq_refl) as (hello & Hpin & H).
  assert (Hh : x_hello full_exchange = hello).
  { assert (Hn : exists c0, cn_new toy (zeros 400) (zeros 300) [] silent = Ok c0) by (eexists; reflexivity). destruct Hn as [c0 Hn].
    destruct (Hpin _ _ _ Hn) as [e1 E1]. destruct (answering_hello cc sg cap c0 Hn) as [e2 E2]. rewrite E1 in E2. cbn [tx_log silent app] in E2.
    symmetry. exact (goes_out_inj _ _ _ _ E2). }
  destruct (H (zeros 400) full_rx full_start full_exchange [x17; x03] tt full_start_new) as (o & out & c & H1 & H2 & H3); auto.
  - unfold chunked, full_rx. constructor; [|constructor; [|constructor; [|constructor]]]; eexists; (split; [reflexivity|discriminate]).
  - rewrite Hstr. apply C44_server_flight; [exact toy_ok|exact full_followable].
  - intros [=].
  - exists o, out, c. split; [exact H1|]. split; [exact H2|]. rewrite H3, Hh. reflexivity.
Qed.

(** Five of them: with a raw public key; with a certificate too long for the write buffer; without a key;
    with a signer that gives nothing; with a signature too long. *)
Definition five_clients : list (option cert_entry * outcome tls_error ((bytes -> option bytes) * sig_scheme) * (outcome tls_error unit -> Prop)) :=
  [ (Some (CE_RawPublicKey [x01]), Err InvalidPrivateKey, fun o => o = Panic PUnimplemented);
    (Some (CE_X509 (repeat x00 300)), Err InvalidPrivateKey, fun o => o = Err InsufficientSpace);
    (Some (CE_X509 [x01; x02; x03]), Err InvalidPrivateKey, fun o => o = Err InvalidPrivateKey);
    (Some (CE_X509 [x01; x02; x03]), Ok (fun _ => None, SS_Ed25519), fun o => o = Panic PUnwrap);
    (Some (CE_X509 [x01; x02; x03]), Ok (fun m => Some m, SS_Ed25519), fun o => o = Panic PUnwrap) ].

Lemma five_answers client tr ctx : length ctx = 2 ->
  Forall (fun q : option cert_entry * outcome tls_error ((bytes -> option bytes) * sig_scheme) * (outcome tls_error unit -> Prop) =>
    forall o out, answer_ends toy (answering (fst (fst q)) (snd (fst q)) 16) 300 client tr (Some ctx) o out -> snd q o) five_clients.
Proof.
  intros Hctx.
  assert (Hl : forall m, 16 < length (client_signs toy m)).
  { intros m. unfold client_signs. rewrite !app_length, repeat_length. lia. }
  assert (Hc : forall d, length (cert_message ctx [d]) = 15 + length d).
  { intros d. unfold cert_message, vec. cbn [map concat]. rewrite !app_length, !uint_length. cbn [length]. lia. }
  assert (H48 : hash_len toy <= 48) by (apply Nat.leb_le; reflexivity).
  assert (Hr : has_room 300 (cert_message ctx [[x01; x02; x03]])) by (unfold has_room; rewrite Hc; cbn [length]; lia).
  unfold five_clients. repeat (apply Forall_cons); [..|apply Forall_nil]; cbn [fst snd]; intros o out H.
  - apply (C67_one _ _ _ _ _ _ _ (Panic PUnimplemented) []) in H as [_ H]; [now symmetry|].
    eapply ae_raw; [reflexivity|lia].
  - apply (C67_one _ _ _ _ _ _ _ (Err InsufficientSpace) []) in H as [_ H]; [now symmetry|].
    eapply ae_cert_space; [reflexivity|]. apply ns_message. rewrite Hc, repeat_length. lia.
  - eapply C67_one in H as [_ H]; [symmetry; exact H|].
    eapply ae_cert; [reflexivity|exact Hr|now apply se_none].
  - eapply C67_one in H as [_ H]; [symmetry; exact H|].
    eapply ae_cert; [reflexivity|exact Hr|]. eapply se_refused; [reflexivity|exact H48|reflexivity].
  - eapply C67_one in H as [_ H]; [symmetry; exact H|].
    eapply ae_cert; [reflexivity|exact Hr|]. eapply se_long; [reflexivity|exact H48|reflexivity|apply Hl].
Qed.

Example C67_case : Forall (fun q : option cert_entry * outcome tls_error ((bytes -> option bytes) * sig_scheme) * (outcome tls_error unit -> Prop) =>
    exists o c, cn_open toy (answering (fst (fst q)) (snd (fst q)) 16) small_config tt full_start = (o, c) /\ snd q o) five_clients.
Proof.
  pose proof (five_answers (x_client full_exchange) (x_hellos full_exchange ++ raw (x_msgs full_exchange)) [x07; x08] eq_refl) as H.
  rewrite Forall_forall in H. apply Forall_forall. intros q Hq.
  destruct (answering_ends (fst (fst q)) (snd (fst q)) 16) as (o & out & c & Ho & Hop & _).
  exists o, c. split; [exact Hop|]. exact (H q Hq o out Ho).
Qed.

Print Assumptions C67_answer.
Print Assumptions C67_one.
Print Assumptions C67_open.
