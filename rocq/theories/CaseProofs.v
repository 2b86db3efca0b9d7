(** * The ways a handshake can go: none is missing *)
From Coq Require Import String List NArith Arith Bool Lia ZArith.
From Coq.Strings Require Import Byte.
From Coq Require Import ZifyBool ZifyNat ZifyN.
From Verif Require Import Base ParseBuffer Buffer Codes Extensions Crypto KeySchedule Config Handshake Record WriteBuffer
  Transport RecordReader ReadBuffer Connection Api BaseProofs ParseProofs SpecWire SpecCodes SpecMessages WireProofs SpecKeys
  SpecRecord SpecRead KeyProofs RecordProofs SpecSend HsProofs SpecHandshake AcceptProofs LocalProofs PropCodes
  SpecOpen SpecComplete MessageProofs FlightProofs OpenProofs CompleteProofs PropComplete SpecDefect DefectProofs SpecFailure FailureProofs.
Import ListNotations.
Local Open Scope list_scope.

Lemma reading_cases room w :
  (exists e, unreadable room w e) \/
  exists h f rest, w = h ++ f ++ rest /\ framed h f /\ type_known h /\ length f <= room.
Proof.
  destruct (lt_dec (length w) 5) as [Hl|Hl]; [left; eexists; now constructor|].
  rewrite <- (firstn_skipn 5 w). set (h := firstn 5 w). set (w1 := skipn 5 w).
  assert (Hh : length h = 5) by (unfold h; rewrite firstn_length; lia).
  assert (Hk : type_known h \/ ~ type_known h).
  { unfold type_known. destruct h as [|t l]; [discriminate|]. destruct (in_dec N.eq_dec (Byte.to_N t) [0; 20; 21; 22; 23]%N); auto. }
  destruct Hk as [Hk|Hk]; [|left; eexists; now apply un_type].
  set (n := N.to_nat (be_val (skipn 3 h))). assert (Hn : be_val (skipn 3 h) = N.of_nat n) by (unfold n; lia).
  destruct (le_lt_dec n room) as [Hr|Hr]; [|left; eexists; eapply un_long; eauto].
  destruct (lt_dec (length w1) n) as [Hw|Hw]; [left; eexists; eapply un_cut; eauto|].
  right. exists h, (firstn n w1), (skipn n w1). rewrite firstn_skipn. split; [reflexivity|].
  assert (Hf : length (firstn n w1) = n) by (rewrite firstn_length; lia).
  split; [split; [exact Hh|now rewrite Hf]|]. split; [exact Hk|lia].
Qed.

Lemma alert_cases f : (exists l d, is_alert f l d) \/ (exists e, bad_alert f e).
Proof.
  destruct f as [|a [|b f]]; [right; eexists; apply ba_short; cbn; lia|right; eexists; apply ba_short; cbn; lia|].
  destruct (in_dec N.eq_dec (Byte.to_N a) (map fst iana_alert_level)) as [Ha|Ha]; [|right; eexists; apply ba_code; tauto].
  destruct (in_dec N.eq_dec (Byte.to_N b) (map fst iana_alert_desc)) as [Hb|Hb]; [|right; eexists; apply ba_code; tauto].
  left. apply in_map_iff in Ha as ([na l] & Ea & Ha). apply in_map_iff in Hb as ([nb d] & Eb & Hb). cbn [fst] in *. subst na nb.
  exists l, d, f. destruct C03_alert_level as [L1 _]. destruct C03_alert_description as [D1 _].
  assert (El : alert_level_code l = Byte.to_N a).
  { clear -Ha. revert Ha. generalize (Byte.to_N a). intros n H. cbn in H. repeat (destruct H as [H|H]; [apply pair_equal_spec in H as [<- <-]; reflexivity|]). destruct H. }
  assert (Ed : alert_desc_code d = Byte.to_N b).
  { clear -Hb. revert Hb. generalize (Byte.to_N b). intros n H. cbn in H. repeat (destruct H as [H|H]; [apply pair_equal_spec in H as [<- <-]; reflexivity|]). destruct H. }
  rewrite El, Ed. destruct a, b; reflexivity.
Qed.

Section Cases.
Context {V : Type} (C : crypto) (p : provider V).

Lemma bytes_cases bs : (exists e, faulty C bs e) \/ exists b m junk, bs = b ++ junk /\ understood C b m.
Proof.
  destruct (faulty_or C [] bs) as [(a & q & Ep)|He]; [right|now left].
  apply local_message in Ep as (b & y & -> & _ & Hp). destruct (parses_understood C b a Hp) as (m & Hm & _). eauto.
Qed.

Lemma understood_pos b m : understood C b m -> b <> [].
Proof. intros [(len & body & Hlen & _ & ->) _] E. apply (f_equal (@length byte)) in E. rewrite !app_length, Hlen in E. cbn in E. lia. Qed.

Lemma message_cases t tr v b m : understood C b m ->
  (exists v', message_taken C p t tr v b m v') \/ exists o, message_refused C p t tr v b m o.
Proof.
  intros Hu. unfold message_taken, message_refused. destruct (understood_parses C b m Hu) as (hh & _ & Hd).
  destruct m as [suite items| |items|ctx rw certs|ctx items|code sg|vd].
  - right. eexists. split; [exact Hu|]. split; [|reflexivity]. discriminate.
  - right. eexists. split; [exact Hu|]. split; [|reflexivity]. discriminate.
  - left. exists v. split; [exact Hu|]. split; [exact I|reflexivity].
  - destruct (p_has_verifier p).
    + destruct (p_verify_cert p (tr ++ b) (mk_cert rw ctx (map CE_X509 certs)) v) as [o v'] eqn:E.
      assert (Ho : o = Ok tt \/ o <> Ok tt) by (destruct o as [[]|e|x| |]; [now left|..]; right; discriminate).
      destruct Ho as [->|Ho]; [left; exists v'; split; [exact Hu|]; split; [exact I|reflexivity]|right; exists o; split; [exact Hu|]; eauto].
    + left. exists v. split; [exact Hu|]. split; [exact I|reflexivity].
  - left. exists v. split; [exact Hu|]. split; [exact I|reflexivity].
  - destruct hh; try contradiction. destruct Hd as [Hd _]. destruct (p_has_verifier p).
    + destruct (p_verify_sig p (mk_cv (cv_scheme v0) sg) v) as [o v'] eqn:E.
      assert (Ho : o = Ok tt \/ o <> Ok tt) by (destruct o as [[]|e|x| |]; [now left|..]; right; discriminate).
      destruct Ho as [->|Ho]; [left; exists v'; split; [exact Hu|]; split; [exact I|]; eauto|right; exists o; split; [exact Hu|]; eauto 6].
    + left. exists v. split; [exact Hu|]. split; [exact I|reflexivity].
  - assert (Hdec : rfc_verify_data C t tr = Some vd \/ rfc_verify_data C t tr <> Some vd).
    { destruct (rfc_verify_data C t tr) as [vd'|]; [|right; discriminate]. destruct (list_eq_dec Byte.byte_eq_dec vd' vd) as [->|Hne]; [now left|right; congruence]. }
    destruct Hdec as [Hv|Hv]; [left; exists v; split; [exact Hu|]; split; [exact I|auto]|right; eexists; split; [exact Hu|]; split; [|split; [exact Hv|reflexivity]]; discriminate].
Qed.

Lemma messages_cases t : forall k bs tr v, length bs < k ->
  (exists ms v1, bs = raw ms /\ messages_taken C p t tr v ms v1) \/
  (exists ms v1 b m junk o, bs = raw ms ++ b ++ junk /\ messages_taken C p t tr v ms v1 /\ message_refused C p t (tr ++ raw ms) v1 b m o) \/
  (exists ms v1 junk e, bs = raw ms ++ junk /\ messages_taken C p t tr v ms v1 /\ junk <> [] /\ faulty C junk e).
Proof.
  induction k as [|k IH]; intros bs tr v Hk; [lia|].
  destruct bs as [|x bs]; [left; exists [], v; split; [reflexivity|constructor]|].
  destruct (bytes_cases (x :: bs)) as [[e Hu]|(b & m & junk & Hb & Hu)].
  { right. right. exists [], v, (x :: bs), e. split; [reflexivity|]. split; [constructor|]. split; [discriminate|exact Hu]. }
  rewrite Hb in *. pose proof (understood_pos b m Hu) as Hne.
  destruct (message_cases t tr v b m Hu) as [(v1 & Ht)|(o & Ho)].
  2:{ right. left. exists [], v, b, m, junk, o. split; [reflexivity|]. split; [constructor|]. unfold raw. cbn [map concat]. now rewrite app_nil_r. }
  destruct (IH junk (tr ++ b) v1) as [(ms & v2 & -> & H)|[(ms & v2 & b' & m' & j & o & -> & H & Hr)|(ms & v2 & j & e & -> & H & Hj & Hg)]].
  { destruct b; [contradiction|]. rewrite app_length in Hk. cbn in Hk. lia. }
  - left. exists ((b, m) :: ms), v2. split; [reflexivity|]. econstructor; eauto.
  - right. left. exists ((b, m) :: ms), v2, b', m', j, o. change (raw ((b, m) :: ms)) with (b ++ raw ms). split; [now rewrite <- app_assoc|].
    split; [econstructor; eauto|]. now rewrite app_assoc.
  - right. right. exists ((b, m) :: ms), v2, j, e. change (raw ((b, m) :: ms)) with (b ++ raw ms). split; [now rewrite <- app_assoc|].
    split; [econstructor; eauto|]. auto.
Qed.

Lemma unpad_none inner : rfc_unpad inner = None -> inner = [] \/ exists k, inner = repeat x00 (S k).
Proof.
  unfold rfc_unpad. intros H. assert (G : forall l, drop_zeros l = [] -> l = repeat x00 (length l)).
  { induction l as [|y l IH]; [reflexivity|]. cbn [drop_zeros length repeat]. destruct y; try discriminate. intros E. now rewrite <- IH. }
  destruct (drop_zeros (rev inner)) as [|y l] eqn:E; [|discriminate]. apply G in E. rewrite rev_length in E.
  destruct inner as [|y l]; [now left|]. right. exists (length l). change (S (length l)) with (length (y :: l)).
  apply (f_equal (@rev byte)) in E. rewrite rev_involutive in E. rewrite E at 1. clear.
  generalize (length (y :: l)) as i. induction i as [|i IHi]; [reflexivity|]. cbn [repeat rev]. rewrite IHi. now rewrite <- repeat_cons.
Qed.

Lemma record_cases t key iv tr n v h f : framed h f -> type_known h ->
  (exists o, record_fails C p t key iv tr n v h f o) \/ (exists e, record_garbled C p t key iv tr n v h f e) \/
  exists ms v', carried C key iv n [(h, f)] (map fst ms) /\ messages_taken C p t tr v ms v'.
Proof.
  intros Hf Hk. destruct h as [|ty h]; [contradiction|]. cbn [type_known] in Hk.
  assert (Hty : ty = x00 \/ ty = ty_ccs \/ ty = ty_alert \/ ty = ty_handshake \/ ty = ty_data) by (destruct ty; cbn in Hk; intuition (auto; discriminate)).
  destruct Hty as [->|[->|[->|[->| ->]]]].
  - left. eexists. now apply rf_invalid.
  - right. right. exists [], v. split; [apply ca_ccs; [exact Hf|reflexivity|constructor]|constructor].
  - left. destruct (alert_cases f) as [(l & d & H)|(e & H)]; eexists; [eapply rf_alert; eauto; reflexivity|eapply rf_bad_alert; eauto; reflexivity].
  - destruct (bytes_cases f) as [[e Hu]|(b & m & junk & -> & Hu)]; [right; left; exists e; now apply rg_clear|].
    destruct (message_cases t tr v b m Hu) as [(v1 & Ht)|(o & Ho)]; [|left; exists o; eapply rf_message; eauto; reflexivity].
    right. right. exists [(b, m)], v1. split; [apply ca_clear; [exact Hf|reflexivity|constructor]|]. econstructor; [exact Ht|constructor].
  - destruct (rfc_open C key iv n (ty_data :: h) f) as [inner|] eqn:Ho; [|left; eexists; now apply rf_forged].
    destruct (rfc_unpad inner) as [[ct content]|] eqn:Hu.
    2:{ left. destruct (unpad_none inner Hu) as [->|(k & ->)]; eexists; [now apply rf_empty|eapply rf_zeros; eauto; reflexivity]. }
    assert (Hsealed : forall o, content_fails C p t tr v ct content o -> exists o, record_fails C p t key iv tr n v (ty_data :: h) f o)
      by (intros o H; exists o; eapply rf_sealed; eauto; reflexivity).
    destruct (in_dec N.eq_dec (Byte.to_N ct) [20; 21; 22; 23]%N) as [Hin|Hout]; [|left; eapply Hsealed; now apply cf_type].
    assert (Hct : ct = ty_ccs \/ ct = ty_alert \/ ct = ty_handshake \/ ct = ty_data) by (clear -Hin; destruct ct; cbn in Hin; intuition (auto; discriminate)).
    destruct Hct as [->|[->|[->| ->]]].
    + left. eapply Hsealed. apply cf_ccs.
    + left. destruct (alert_cases content) as [(l & d & H)|(e & H)]; eapply Hsealed; [eapply cf_alert; eauto|eapply cf_bad_alert; eauto].
    + destruct (messages_cases t (S (length content)) content tr v ltac:(lia)) as [(ms & v1 & -> & H)|[(ms & v1 & b & m & j & o & -> & H & Hr)|(ms & v1 & j & e & -> & H & Hj & Hg)]].
      * right. right. exists ms, v1. split; [|exact H]. rewrite <- (app_nil_r (map fst ms)). eapply ca_sealed; [exact Hf|reflexivity|exact Ho|exact Hu|constructor].
      * left. eapply Hsealed. eapply cf_message; eauto.
      * right. left. exists e. eapply rg_sealed; eauto.
    + left. eapply Hsealed. apply cf_data.
Qed.

Lemma first_cases psk hello h f : crypto_ok C -> framed h f -> type_known h ->
  (exists e, first_fails C (p_secret p) h f e) \/
  exists x junk, f = x_shello x ++ junk /\ hd_error h = Some ty_handshake /\ x_hello x = hello /\
    understood C (x_shello x) (M_ServerHello (x_suite x) (x_items x)) /\ share_of (x_items x) (x_group x) (x_share x) /\
    secrets_ok C psk (p_secret p) x.
Proof.
  intros HC Hf Hk. destruct h as [|ty h]; [contradiction|]. cbn [type_known] in Hk.
  assert (Hty : ty = x00 \/ ty = ty_ccs \/ ty = ty_alert \/ ty = ty_handshake \/ ty = ty_data) by (destruct ty; cbn in Hk; intuition (auto; discriminate)).
  destruct Hty as [->|[->|[->|[->| ->]]]].
  - left. eexists. now apply ff_invalid.
  - left. eexists. now apply ff_ccs.
  - left. destruct (alert_cases f) as [(l & d & H)|(e & H)]; eexists; [eapply ff_alert; eauto; reflexivity|eapply ff_bad_alert; eauto; reflexivity].
  - destruct (bytes_cases f) as [[e Hu]|(b & m & junk & -> & Hu)]; [left; exists e; now apply ff_faulty|].
    destruct m as [suite items| | | | | |]; try (left; eexists; eapply ff_message; [reflexivity|exact Hu|exact I]).
    destruct (understood_parses C b _ Hu) as (hh & Hp & Hd). destruct hh; cbn [denotes] in Hd; try contradiction.
    assert (Hs : (exists g share dhe, share_of items g share /\ c_dh C (p_secret p) share = Some dhe) \/
      forall g share, share_of items g share -> c_dh C (p_secret p) share = None).
    { destruct (sh_key_share exts) as [[g sh]|] eqn:Eks.
      - pose proof (share_of_block items exts g sh Hd Eks) as Hsh. destruct (c_dh C (p_secret p) sh) as [dhe|] eqn:Edh; [left; eauto|].
        right. intros g' sh' Hsh'. now rewrite (share_of_unique items _ _ _ _ Hsh' Hsh).
      - right. intros g' sh' Hsh'. destruct (share_present items exts g' sh' Hd Hsh') as (g & E). congruence. }
    destruct Hs as [(g & sh & dhe & Hsh & Hdh)|Hno]; [|left; eexists; eapply ff_share; [reflexivity|exact Hu|exact Hno]].
    right. destruct (C44_server_exists C psk (p_secret p) hello b suite items g sh dhe [] HC Hdh) as (x & X1 & X2 & X3 & X4 & X5 & X6 & _ & _ & _ & _ & X7 & _).
    { intros (m & [] & _). }
    exists x, junk. rewrite X2, X3, X4, X5, X6. auto 10.
  - left. eexists. now apply ff_data.
Qed.

Lemma taken_trans t tr v ms v1 ms' v2 : messages_taken C p t tr v ms v1 -> messages_taken C p t (tr ++ raw ms) v1 ms' v2 ->
  messages_taken C p t tr v (ms ++ ms') v2.
Proof.
  intros H. induction H as [tr v|tr v b m v1 ms v3 Hm H IH]; intros H2; cbn [app].
  - unfold raw in H2. cbn [map concat] in H2. now rewrite app_nil_r in H2.
  - change (raw ((b, m) :: ms)) with (b ++ raw ms) in H2. rewrite app_assoc in H2. econstructor; [exact Hm|now apply IH].
Qed.

Lemma protected_le rs : (protected_in rs <= N.of_nat (length rs))%N.
Proof.
  unfold protected_in. induction rs as [|r rs IH]; [cbn; lia|]. cbn [filter length].
  destruct (match fst r with [] => false | t :: _ => Byte.eqb t ty_data end); cbn [length]; lia.
Qed.

Theorem handshake_cases psk room hello v0 w : crypto_ok C -> (N.of_nat (length w) < 2 ^ 64)%N ->
  (exists e, unreadable room w e) \/
  (exists h f rest, w = h ++ f ++ rest /\ framed h f /\ length f <= room /\
     exists e, first_fails C (p_secret p) h f e) \/
  exists x ms n v1 rest, x_hello x = hello /\ begun C p room w x ms n v0 v1 rest /\ secrets_ok C psk (p_secret p) x /\
    ((exists e, unreadable room rest e) \/
     exists h f rest', rest = h ++ f ++ rest' /\ framed h f /\ length f <= room /\
       ((exists o, record_fails C p (x_server x) (x_skey x) (x_siv x) (x_hellos x ++ raw ms) n v1 h f o) \/
        (exists e, record_garbled C p (x_server x) (x_skey x) (x_siv x) (x_hellos x ++ raw ms) n v1 h f e) \/
        completes C p (x_server x) (x_skey x) (x_siv x) (x_hellos x ++ raw ms) n v1 h f)).
Proof.
  intros HC Hw. destruct (reading_cases room w) as [?|(h0 & f0 & w1 & Ew & Hf0 & Hk0 & Hl0)]; [now left|].
  destruct (first_cases psk hello h0 f0 HC Hf0 Hk0) as [?|(x & junk & -> & Hh0 & Hx & Hu & Hs & Hsec)]; [right; left; eauto 8|].
  right. right.
  assert (G : forall k rs ms v1 rest, length rest < k -> w = wire_of ((h0, x_shello x ++ junk) :: rs) ++ rest ->
    carried C (x_skey x) (x_siv x) 0 rs (map fst ms) -> messages_taken C p (x_server x) (x_hellos x) v0 ms v1 ->
    ~ (exists m, In m ms /\ is_finished (snd m)) -> Forall (fun r => length (snd r) <= room) ((h0, x_shello x ++ junk) :: rs) ->
    length rs <= length (wire_of rs) ->
    exists ms n v1 rest, begun C p room w x ms n v0 v1 rest /\
    ((exists e, unreadable room rest e) \/
     exists h f rest', rest = h ++ f ++ rest' /\ framed h f /\ length f <= room /\
       ((exists o, record_fails C p (x_server x) (x_skey x) (x_siv x) (x_hellos x ++ raw ms) n v1 h f o) \/
        (exists e, record_garbled C p (x_server x) (x_skey x) (x_siv x) (x_hellos x ++ raw ms) n v1 h f e) \/
        completes C p (x_server x) (x_skey x) (x_siv x) (x_hellos x ++ raw ms) n v1 h f))).
  { induction k as [|k IH]; intros rs ms v1 rest Hlt E Hc Ht Hnf Hfa Hlr; [lia|].
    assert (Hbg : begun C p room w x ms (protected_in rs) v0 v1 rest).
    { exists h0, junk, rs. repeat (split; [assumption|]). split; [reflexivity|]. pose proof (protected_le rs) as Hp.
      assert (Hlen : length (wire_of rs) <= length w).
      { rewrite E. unfold wire_of at 2. cbn [map concat]. fold (wire_of rs). rewrite !app_length. lia. }
      lia. }
    destruct (reading_cases room rest) as [Hun|(h & f & rest' & -> & Hf & Hk & Hl)]; [exists ms, (protected_in rs), v1, rest; auto|].
    destruct (record_cases (x_server x) (x_skey x) (x_siv x) (x_hellos x ++ raw ms) (protected_in rs) v1 h f Hf Hk) as [Hr|[Hg|(ms' & v2 & Hc' & Ht')]].
    1,2: exists ms, (protected_in rs), v1, (h ++ f ++ rest'); split; [exact Hbg|]; right; exists h, f, rest'; auto 10.
    assert (Hdec : (exists m, In m ms' /\ is_finished (snd m)) \/ ~ (exists m, In m ms' /\ is_finished (snd m))).
    { clear. induction ms' as [|[b m] ms' [(m' & H1 & H2)|IH]].
      - right. intros (m & [] & _).
      - left. exists m'. split; [now right|exact H2].
      - destruct m as [| | | | | |vd]; try (right; intros (m' & [<-|H1] & H2); [exact H2|apply IH; eauto]).
        left. exists (b, M_Finished vd). split; [now left|exact I]. }
    destruct Hdec as [Hfin|Hnf'].
    - exists ms, (protected_in rs), v1, (h ++ f ++ rest'). split; [exact Hbg|]. right. exists h, f, rest'. repeat (split; [assumption || reflexivity|]).
      right. right. exists ms', v2. auto.
    - destruct Hf as [Hf1 Hf2]. apply (IH (rs ++ [(h, f)]) (ms ++ ms') v2 rest').
      + rewrite !app_length in Hlt. lia.
      + rewrite E. unfold wire_of. cbn [map concat]. rewrite map_app, concat_app. cbn [map concat fst snd]. rewrite app_nil_r, <- !app_assoc. reflexivity.
      + rewrite map_app. apply carried_app; [exact Hc|exact Hc'].
      + eapply taken_trans; eauto.
      + intros (m & Hin & Hm). apply in_app_or in Hin as [Hin|Hin]; [apply Hnf|apply Hnf']; eauto.
      + inversion Hfa; subst. constructor; [assumption|]. apply Forall_app. split; [assumption|]. constructor; [exact Hl|constructor].
      + unfold wire_of in *. rewrite map_app, concat_app, !app_length. cbn [map concat fst snd length]. rewrite !app_length. lia. }
  destruct (G (S (length w1)) [] [] v0 w1) as (ms & n & v1 & rest & Hbg & Hend).
  - lia.
  - rewrite Ew. unfold wire_of. cbn [map concat fst snd]. rewrite app_nil_r, <- !app_assoc. reflexivity.
  - constructor.
  - constructor.
  - intros (m & [] & _).
  - constructor; [exact Hl0|constructor].
  - cbn. lia.
  - exists x, ms, n, v1, rest. auto.
Qed.
End Cases.
