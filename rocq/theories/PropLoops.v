(** * C62: [write_all] and [read_exact] *)
From Coq Require Import String List NArith Arith Bool Lia ZArith.
From Coq.Strings Require Import Byte.
From Coq Require Import ZifyBool ZifyNat ZifyN.
From Verif Require Import Base Buffer Codes Extensions Crypto KeySchedule Config Handshake Record WriteBuffer
  Transport RecordReader ReadBuffer Connection Api Loops
  BaseProofs SpecWire WireProofs SpecKeys KeyProofs SpecRecord RecordProofs SpecSend SendProofs SpecHello HelloProofs PropHello
  HsWrite HsProofs ConnProofs SpecSession FlagProofs PropSession Toy ToyRun PropSend PropWrite
  SpecRead FrameProofs RecvProofs ServeProofs PropRead TermProofs PropOpen SpecReceiver SpecEndpoint EndpointProofs PropEndpoint SpecLoops.
Import ListNotations.
Local Open Scope list_scope.

Ltac Zify.zify_post_hook ::= Z.div_mod_to_equations.

(** ** The loops as sequences of plain calls *)

Inductive traces (C : crypto) : conn -> list (op * outcome tls_error value) -> conn -> Prop :=
| tr_nil c : traces C c [] c
| tr_cons o v c c1 rs c2 : plain_io o -> step C o c = (Ok v, c1) -> traces C c1 rs c2 -> traces C c ((o, Ok v) :: rs) c2.

Lemma traces_app C c1 rs1 c2 rs2 c3 : traces C c1 rs1 c2 -> traces C c2 rs2 c3 -> traces C c1 (rs1 ++ rs2) c3.
Proof. induction 1; [auto|]. intros H2. cbn [app]. econstructor; eauto. Qed.

Lemma plain_stops o v : plain_io o -> stops o (Ok v) = false.
Proof. intros [->|[(b & -> & _)|(b & -> & _)]]; reflexivity. Qed.

Lemma traces_run C c rs c' : traces C c rs c' -> run C (map fst rs) c = (rs, c').
Proof.
  induction 1 as [|o v c c1 rs c2 Hp Hs _ IH]; [reflexivity|]. cbn [map fst].
  rewrite (run_cons' _ _ _ _ _ _ Hs), (plain_stops o v Hp), IH. reflexivity.
Qed.

Lemma traces_last C c rs c1 o r c2 : traces C c rs c1 -> plain_io o -> step C o c1 = (r, c2) ->
  run C (map fst (rs ++ [(o, r)])) c = (rs ++ [(o, r)], c2).
Proof.
  intros Ht Hp Hs. induction Ht as [|o' v c c1 rs c3 Hp' Hs' _ IH]; cbn [app map fst].
  - rewrite (run_cons' _ _ _ _ _ _ Hs). now destruct (stops o r).
  - rewrite (run_cons' _ _ _ _ _ _ Hs'), (plain_stops o' v Hp'). rewrite IH by assumption. reflexivity.
Qed.

Lemma traces_plain C c rs c' : traces C c rs c' -> Forall plain_io (map fst rs).
Proof. induction 1; cbn [map fst]; constructor; assumption. Qed.

Lemma traces_fine C c rs c' : traces C c rs c' -> Forall (fun p : op * outcome tls_error value => exists v, snd p = Ok v) rs.
Proof. induction 1; constructor; cbn [snd]; eauto. Qed.

(** A call made no progress, or claims more than was there. *)
Definition odd (o : op) (r : outcome tls_error value) : Prop :=
  (exists b n, o = OpWrite b /\ b <> [] /\ r = Ok (VCount n) /\ (n = 0 \/ length b < n)) \/
  (exists dst n d, o = OpRead dst /\ dst <> [] /\ r = Ok (VRead n d) /\ n = 0).

(** The call that ended a loop. *)
Definition ends_with (o : op) (r : outcome tls_error value) (e : outcome call_error bytes) : Prop :=
  plain_io o /\ (passed_on r e \/ r = Diverge /\ e = Diverge \/ odd o r).

Lemma step_write C b c : step C (OpWrite b) c =
  (omap VCount (fst (cn_write C b c)), snd (cn_write C b c)).
Proof. cbn [step]. unfold bind, ret. now destruct (cn_write C b c) as [[n|e|p| |] c1]. Qed.

Lemma step_flush C c : step C OpFlush c = (omap (fun _ => VUnit) (fst (cn_flush C c)), snd (cn_flush C c)).
Proof. cbn [step]. unfold bind, ret. now destruct (cn_flush C c) as [[n|e|p| |] c1]. Qed.

Lemma step_read C d c : step C (OpRead d) c =
  (omap (fun nb => VRead (fst nb) (snd nb)) (fst (on_rh (rh_read C d) c)), snd (on_rh (rh_read C d) c)).
Proof. cbn [step]. unfold bind, ret. now destruct (on_rh (rh_read C d) c) as [[n|e|p| |] c1]. Qed.

Lemma write_all_traces C : forall fuel b c o c', length b <= fuel -> write_all C fuel b c = (o, c') ->
  (o = Ok tt /\ exists rs, traces C c rs c' /\ length rs <= length b /\ accepted rs = b /\ read_bytes rs = [])
  \/ exists rs c1 k r, traces C c rs c1 /\ step C k c1 = (r, c') /\ length rs < length b /\
       ends_with k r (omap (fun _ => []) o) /\ prefix (accepted rs) b /\ read_bytes rs = [] /\ receives k = false /\ (forall u, o <> Ok u).
Proof.
  induction fuel as [|f IH]; intros b c o c' Hf H.
  - destruct b; [|cbn in Hf; lia]. apply pair_equal_spec in H as [<- <-]. left. split; [reflexivity|].
    exists []. split; [constructor|]. repeat split; cbn; lia.
  - destruct b as [|x b]. { apply pair_equal_spec in H as [<- <-]. left. split; [reflexivity|].
      exists []. split; [constructor|]. repeat split; cbn; lia. }
    cbn [write_all] in H. set (bb := x :: b) in *. assert (Hb : bb <> []) by discriminate. clearbody bb.
    assert (H0 : 0 < length bb) by (destruct bb; [contradiction|cbn; lia]).
    assert (Hp : plain_io (OpWrite bb)) by (right; left; eauto).
    unfold bind, map_err in H. pose proof (step_write C bb c) as Hs. destruct (cn_write C bb c) as [w c1]. cbn [fst snd] in Hs.
    assert (Hbad : forall r, step C (OpWrite bb) c = (r, c1) -> c1 = c' ->
      ends_with (OpWrite bb) r (omap (fun _ => []) o) -> (forall u, o <> Ok u) ->
      exists rs c2 k r', traces C c rs c2 /\ step C k c2 = (r', c') /\ length rs < length bb /\
       ends_with k r' (omap (fun _ => []) o) /\ prefix (accepted rs) bb /\ read_bytes rs = [] /\ receives k = false /\ (forall u, o <> Ok u)).
    { intros r Hr <- He Hn. exists [], c, (OpWrite bb), r. split; [constructor|]. split; [exact Hr|]. split; [cbn; exact H0|].
      split; [exact He|]. split; [now exists bb|]. split; [reflexivity|]. split; [reflexivity|exact Hn]. }
    destruct w as [n|e|p| |]; cbn [omap_err] in H; cbn [omap obind] in Hs.
    2-5: apply pair_equal_spec in H as [<- <-]; right; eapply Hbad; [exact Hs|reflexivity| |discriminate];
      split; [exact Hp|]; (left; reflexivity) || (right; left; split; reflexivity).
    destruct (Nat.eqb_spec n 0) as [->|Hn0].
    { apply pair_equal_spec in H as [<- <-]. right. eapply Hbad; [exact Hs|reflexivity| |discriminate].
      split; [exact Hp|]. right. right. left. do 2 eexists. repeat split; eauto. }
    unfold lift, slice_from, slice_rng in H. rewrite Nat.leb_refl, andb_true_r in H. destruct (Nat.leb_spec n (length bb)) as [Hle|Hgt].
    2:{ apply pair_equal_spec in H as [<- <-]. right. eapply Hbad; [exact Hs|reflexivity| |discriminate].
      split; [exact Hp|]. right. right. left. do 2 eexists. repeat split; eauto. }
    assert (Esub : sub bb n (length bb - n) = skipn n bb).
    { unfold sub. apply firstn_all2. rewrite skipn_length. lia. }
    rewrite Esub in H.
    assert (Hl : length (skipn n bb) = length bb - n) by apply skipn_length.
    specialize (IH (skipn n bb) c1 o c' ltac:(lia) H).
    assert (Ea : forall rs, accepted ((OpWrite bb, Ok (VCount n)) :: rs) = firstn n bb ++ accepted rs) by reflexivity.
    assert (Er : forall rs, read_bytes ((OpWrite bb, Ok (VCount n)) :: rs) = read_bytes rs) by reflexivity.
    destruct IH as [(-> & rs & Ht & Hlen & Hac & Hrb)|(rs & c2 & k & r & Ht & Hk & Hlen & He & Hpre & Hrb & Hrk & Hno)].
    + left. split; [reflexivity|]. exists ((OpWrite bb, Ok (VCount n)) :: rs). split; [econstructor; eauto|].
      cbn [length]. split; [lia|]. rewrite Ea, Er, Hac, firstn_skipn. auto.
    + right. exists ((OpWrite bb, Ok (VCount n)) :: rs), c2, k, r. split; [econstructor; eauto|]. split; [exact Hk|].
      cbn [length]. split; [lia|]. split; [exact He|]. rewrite Ea, Er. split; [|auto].
      destruct Hpre as [z Hz]. exists z. rewrite <- app_assoc, <- Hz. symmetry. apply firstn_skipn.
Qed.

Lemma rh_read_len C d c n d1 c' : on_rh (rh_read C d) c = (Ok (n, d1), c') -> length d1 = length d /\ n <= length d.
Proof.
  unfold on_rh, rh_read. destruct (length d =? 0).
  { cbn. intros H. apply pair_equal_spec in H as [H _]. injection H as <- <-. lia. }
  unfold bind at 1. destruct (rh_read_buffered C _) as [[r|e|p| |] s1]; try (destruct s1 as [? [? ?]]; discriminate).
  unfold bind at 1, lift at 1. unfold rb_pop_into. destruct (rb_pop (length d) r) as [q|e|p| |]; cbn [obind]; try (destruct s1 as [? [? ?]]; discriminate).
  unfold set_rng. destruct (Nat.leb_spec (0 + length (fst q)) (length d)) as [Hl|Hl]; cbn [obind]; [|destruct s1 as [? [? ?]]; discriminate].
  unfold bind. cbn [fst snd]. destruct (rh_drop _ s1) as [[u|e|p| |] [s2 [s3 s4]]]; try discriminate.
  unfold ret. intros H. apply pair_equal_spec in H as [H _]. injection H as <- <-. rewrite splice_length by lia. lia.
Qed.

Lemma read_exact_traces C : forall fuel done d c o c', length d <= fuel -> read_exact C fuel done d c = (o, c') ->
  (exists rs, o = Ok (done ++ read_bytes rs) /\ traces C c rs c' /\ length rs <= length d /\ accepted rs = [] /\ length (read_bytes rs) = length d)
  \/ exists rs c1 k r, traces C c rs c1 /\ step C k c1 = (r, c') /\ length rs < length d /\
       ends_with k r o /\ accepted rs = [] /\ length (read_bytes rs) < length d /\ (forall u, o <> Ok u).
Proof.
  induction fuel as [|f IH]; intros done d c o c' Hf H.
  - destruct d; [|cbn in Hf; lia]. apply pair_equal_spec in H as [<- <-]. left. exists []. cbn. rewrite app_nil_r.
    split; [reflexivity|]. split; [constructor|auto].
  - destruct d as [|x d]. { apply pair_equal_spec in H as [<- <-]. left. exists []. cbn. rewrite app_nil_r.
      split; [reflexivity|]. split; [constructor|auto]. }
    cbn [read_exact] in H. set (bb := x :: d) in *. assert (Hb : bb <> []) by discriminate. clearbody bb.
    assert (H0 : 0 < length bb) by (destruct bb; [contradiction|cbn; lia]).
    assert (Hp : plain_io (OpRead bb)) by (right; right; eauto).
    unfold bind, map_err in H. pose proof (step_read C bb c) as Hs. pose proof (rh_read_len C bb c) as Hln.
    destruct (on_rh (rh_read C bb) c) as [w c1]. cbn [fst snd] in Hs.
    assert (Hbad : forall r, step C (OpRead bb) c = (r, c1) -> c1 = c' ->
      ends_with (OpRead bb) r o -> (forall u, o <> Ok u) ->
      exists rs c2 k r', traces C c rs c2 /\ step C k c2 = (r', c') /\ length rs < length bb /\
       ends_with k r' o /\ accepted rs = [] /\ length (read_bytes rs) < length bb /\ (forall u, o <> Ok u)).
    { intros r Hr <- He Hn. exists [], c, (OpRead bb), r. split; [constructor|]. split; [exact Hr|]. split; [cbn; exact H0|].
      split; [exact He|]. split; [reflexivity|]. split; [cbn; exact H0|exact Hn]. }
    destruct w as [[n d1]|e|p| |]; cbn [omap_err] in H; cbn [omap obind fst snd] in Hs.
    2-5: apply pair_equal_spec in H as [<- <-]; right; eapply Hbad; [exact Hs|reflexivity| |discriminate];
      split; [exact Hp|]; (left; reflexivity) || (right; left; split; reflexivity).
    cbn [fst snd] in H. destruct (Hln n d1 c1 eq_refl) as [Hd Hn].
    destruct (Nat.eqb_spec n 0) as [->|Hn0].
    { apply pair_equal_spec in H as [<- <-]. right. eapply Hbad; [exact Hs|reflexivity| |discriminate].
      split; [exact Hp|]. right. right. right. do 3 eexists. repeat split; eauto. }
    unfold lift, slice_from, slice_rng in H. rewrite Nat.leb_refl, andb_true_r in H. rewrite (proj2 (Nat.leb_le n (length d1))) in H by lia.
    assert (Esub : sub d1 n (length d1 - n) = skipn n d1).
    { unfold sub. apply firstn_all2. rewrite skipn_length. lia. }
    rewrite Esub in H.
    assert (Hl : length (skipn n d1) = length d1 - n) by apply skipn_length.
    assert (Hl1 : length (firstn n d1) = n) by (apply firstn_length_le; lia).
    specialize (IH _ (skipn n d1) c1 o c' ltac:(lia) H).
    assert (Ea : forall rs, accepted ((OpRead bb, Ok (VRead n d1)) :: rs) = accepted rs) by reflexivity.
    assert (Er : forall rs, read_bytes ((OpRead bb, Ok (VRead n d1)) :: rs) = firstn n d1 ++ read_bytes rs) by reflexivity.
    destruct IH as [(rs & -> & Ht & Hlen & Hac & Hrb)|(rs & c2 & k & r & Ht & Hk & Hlen & He & Hac & Hrb & Hno)].
    + left. exists ((OpRead bb, Ok (VRead n d1)) :: rs). rewrite Ea, Er, <- app_assoc. split; [reflexivity|]. split; [econstructor; eauto|].
      cbn [length]. rewrite app_length. split; [lia|]. split; [exact Hac|lia].
    + right. exists ((OpRead bb, Ok (VRead n d1)) :: rs), c2, k, r. split; [econstructor; eauto|]. split; [exact Hk|].
      cbn [length]. split; [lia|]. split; [exact He|]. rewrite Ea, Er, app_length. split; [exact Hac|]. split; [lia|exact Hno].
Qed.

Lemma accepted_app a b : accepted (a ++ b) = accepted a ++ accepted b.
Proof. unfold accepted. now rewrite map_app, concat_app. Qed.

Lemma read_bytes_app a b : read_bytes (a ++ b) = read_bytes a ++ read_bytes b.
Proof. unfold read_bytes. now rewrite map_app, concat_app. Qed.

(** One call. *)
Lemma io_step_traces C k c o c' : io_step C k c = (o, c') ->
  (exists rs, filled k o /\ traces C c rs c' /\ length rs <= effort [k] /\ accepted rs = written [k] /\ read_bytes rs = returned [o] /\ (k = Flush -> exists r, rs = [(OpFlush, r)]))
  \/ exists rs c1 q r, traces C c rs c1 /\ step C q c1 = (r, c') /\ length rs < effort [k] /\
       ends_with q r o /\ prefix (accepted rs) (written [k]) /\ length (read_bytes rs) <= wanted [k] /\
       (receives q = true -> length (read_bytes rs) < wanted [k]) /\ (forall u, o <> Ok u).
Proof.
  unfold effort, written, returned, wanted, filled. destruct k as [b| |dst]; cbn [io_step map list_sum fold_right concat]; rewrite ?app_nil_r, ?Nat.add_0_r; intros H.
  - unfold bind, ret in H. destruct (write_all C (length b) b c) as [w c1] eqn:Ew.
    assert (E : o = omap (fun _ => []) w /\ c' = c1) by (destruct w; apply pair_equal_spec in H as [<- <-]; auto).
    destruct E as [-> ->].
    destruct (write_all_traces C _ _ _ _ _ (le_n _) Ew) as [(-> & rs & Ht & Hl & Ha & Hr)|(rs & c2 & k & r & Ht & Hk & Hl & He & Hp & Hr & Hrk & Hn)].
    + left. exists rs. split; [exists []; auto|]. split; [exact Ht|]. split; [exact Hl|]. split; [exact Ha|]. split; [exact Hr|discriminate].
    + right. exists rs, c2, k, r. split; [exact Ht|]. split; [exact Hk|]. split; [exact Hl|]. split; [exact He|]. split; [exact Hp|].
      rewrite Hr. split; [cbn; lia|]. split; [|destruct w as [[]| | | |]; try discriminate; now destruct (Hn tt)].
      intros Hq. congruence.
  - unfold bind, map_err, ret in H. pose proof (step_flush C c) as Hs. destruct (cn_flush C c) as [w c1]. cbn [fst snd] in Hs.
    destruct w as [u|e|p| |]; cbn [omap_err] in H; cbn [omap obind] in Hs.
    { apply pair_equal_spec in H as [<- <-]. left. exists [(OpFlush, Ok VUnit)]. split; [exists []; auto|].
      split; [econstructor; [now left|exact Hs|constructor]|]. repeat (split; [reflexivity|]). eauto. }
    all: apply pair_equal_spec in H as [<- <-]; right; exists [], c, OpFlush; eexists; split; [constructor|]; split; [exact Hs|];
      split; [cbn; lia|]; split; [split; [now left|]; (left; reflexivity) || (right; left; split; reflexivity)|];
      split; [now exists []|]; split; [cbn; lia|]; split; discriminate.
  - destruct (read_exact_traces C _ _ _ _ _ _ (le_n _) H) as [(rs & -> & Ht & Hl & Ha & Hr)|(rs & c2 & k & r & Ht & Hk & Hl & He & Ha & Hr & Hn)].
    + left. exists rs. split; [eexists; split; [reflexivity|exact Hr]|]. cbn [app]. rewrite ?app_nil_r. split; [exact Ht|]. split; [exact Hl|]. split; [exact Ha|]. split; [reflexivity|discriminate].
    + right. exists rs, c2, k, r. split; [exact Ht|]. split; [exact Hk|]. split; [exact Hl|]. split; [exact He|].
      rewrite Ha. split; [now exists []|]. split; [lia|]. auto.
Qed.

Lemma written_app a b : written (a ++ b) = written a ++ written b.
Proof. unfold written. now rewrite map_app, concat_app. Qed.

(** A whole program. *)
Lemma program_traces C : forall l c os c', program C l c = (os, c') ->
  (exists rs, Forall2 filled l os /\ traces C c rs c' /\ length rs <= effort l /\ accepted rs = written l /\ read_bytes rs = returned os /\ (forall l1, l = l1 ++ [Flush] -> exists rs1 r, rs = rs1 ++ [(OpFlush, r)]))
  \/ exists l1 k l2 os1 o rs c1 q r, l = l1 ++ k :: l2 /\ os = os1 ++ [o] /\ Forall2 filled l1 os1 /\
       traces C c rs c1 /\ step C q c1 = (r, c') /\ length rs < effort l /\
       ends_with q r o /\ prefix (accepted rs) (written l) /\ prefix (returned os1) (read_bytes rs) /\ length (read_bytes rs) <= wanted l /\
       (receives q = true -> length (read_bytes rs) < wanted l) /\ (forall u, o <> Ok u).
Proof.
  induction l as [|k l IH]; intros c os c' H.
  { apply pair_equal_spec in H as [<- <-]. left. exists []. split; [constructor|]. split; [constructor|]. repeat (split; [reflexivity|]). intros l1 E. now destruct l1. }
  cbn [program] in H. destruct (io_step C k c) as [o c1] eqn:E.
  assert (Ef : effort (k :: l) = effort [k] + effort l) by (unfold effort, list_sum; cbn [map fold_right]; lia).
  assert (Ew : written (k :: l) = written [k] ++ written l) by (unfold written; cbn [map concat]; now rewrite app_nil_r).
  assert (Ea : wanted (k :: l) = wanted [k] + wanted l) by (unfold wanted, list_sum; cbn [map fold_right]; lia).
  destruct (io_step_traces C k c o c1 E) as [(rs1 & F1 & T1 & L1 & A1 & R1 & Z1)|(rs1 & c2 & q & r & T1 & S1 & L1 & X1 & P1 & R1 & W1 & N1)].
  - destruct F1 as (b & -> & F1). destruct (program C l c1) as [os2 c2] eqn:E2. apply pair_equal_spec in H as [<- <-].
    assert (Er : returned (Ok b :: os2) = returned [Ok b] ++ returned os2) by (unfold returned; cbn [map concat]; now rewrite app_nil_r).
    assert (Hlb : length (returned [Ok b]) = wanted [k]).
    { unfold returned, wanted. cbn. rewrite app_nil_r. destruct k; [subst b; reflexivity..|cbn; lia]. }
    destruct (IH c1 os2 c2 E2) as [(rs2 & F2 & T2 & L2 & A2 & R2 & Z2)|(l1 & k2 & l2 & os1 & o & rs2 & c3 & q & r & E3 & E4 & F2 & T2 & S2 & L2 & X2 & P2 & Q2 & R2 & W2 & N2)].
    + left. exists (rs1 ++ rs2). split; [constructor; [now exists b|exact F2]|]. split; [eapply traces_app; eauto|].
      rewrite app_length, accepted_app, read_bytes_app, A1, A2, R1, R2. split; [lia|]. split; [now symmetry|]. split; [now symmetry|].
      intros l1 El. destruct l1 as [|k1 l1]; cbn [app] in El; injection El as -> ->.
      * destruct (Z1 eq_refl) as [r ->]. apply pair_equal_spec in E2 as [<- <-].
        assert (rs2 = []) as -> by (destruct rs2; [reflexivity|cbn in L2; lia]). exists [], r. reflexivity.
      * destruct (Z2 l1 eq_refl) as (rs3 & r & ->). exists (rs1 ++ rs3), r. apply app_assoc.
    + right. exists (k :: l1), k2, l2, (Ok b :: os1), o, (rs1 ++ rs2), c3, q, r. split; [now rewrite E3|]. split; [now rewrite E4|].
      split; [constructor; [now exists b|exact F2]|]. split; [eapply traces_app; eauto|]. split; [exact S2|].
      rewrite !app_length, accepted_app, read_bytes_app, A1, R1. split; [lia|]. split; [exact X2|].
      split. { destruct P2 as [z Hz]. exists z. rewrite Ew, Hz. now rewrite app_assoc. }
      split. { destruct Q2 as [z Hz]. exists z. rewrite Hz.
        change (returned (Ok b :: os1)) with (b ++ returned os1). change (returned [Ok b]) with (b ++ []). now rewrite app_nil_r, app_assoc. }
      rewrite app_length, Hlb, Ea. split; [lia|]. split; [intros Hq; specialize (W2 Hq); lia|exact N2].
  - assert (H' : os = [o] /\ c' = c1).
    { destruct o as [u| | | |]; [now destruct (N1 u)|apply pair_equal_spec in H as [<- <-]; auto..]. }
    destruct H' as [-> ->]. right. exists [], k, l, [], o, rs1, c2, q, r. split; [reflexivity|]. split; [reflexivity|]. split; [constructor|].
    split; [exact T1|]. split; [exact S1|]. split; [lia|]. split; [exact X1|].
    split. { destruct P1 as [z Hz]. exists (z ++ written l). rewrite Ew, Hz. now rewrite app_assoc. }
    split; [now eexists|]. rewrite Ea. split; [lia|]. split; [intros Hq; specialize (W1 Hq); lia|exact N1].
Qed.

(** ** On a connection *)

Lemma fifo_progress : forall rs q cs got q', fifo q rs cs got q' ->
  forall dst d, In (OpRead dst, Ok (VRead 0 d)) rs -> dst = [].
Proof.
  induction 1 as [q|q o r rs cs1 cs got1 q1 got q2 Hq Ht Hf IH]; intros dst d Hin; [contradiction|].
  destruct Hin as [E|Hin]; [|eauto]. apply pair_equal_spec in E as [-> ->].
  remember (q ++ concat cs1) as Q eqn:EQ. clear EQ.
  inversion Ht as [q0 E1 E2|dst0 q0 n Hd Hne Hn E1 E2| | | |o0 r0 q0 Hno| o0 r0 q0 Hno E1 E2]; subst.
  - reflexivity.
  - destruct dst; [reflexivity|]. destruct Q; [contradiction|]. cbn in *. lia.
  - now destruct (Hno _ eq_refl).
  - discriminate.
Qed.

Lemma plain_no_close ops : Forall plain_io ops -> no_close ops.
Proof.
  intros H. unfold no_close. apply forallb_forall. intros o Ho. rewrite Forall_forall in H.
  destruct (H o Ho) as [->|[(b & -> & _)|(b & -> & _)]]; reflexivity.
Qed.

Lemma fine_not_closed rs : Forall (fun p : op * outcome tls_error value => exists v, snd p = Ok v) rs -> not_closed rs.
Proof. intros H. eapply Forall_impl; [|exact H]. cbn. intros p [v ->]. discriminate. Qed.

(** The loops never meet a call that makes no progress, and the calls return. *)
Lemma never_odd C L c rs c1 o r c' : crypto_ok C -> established C L c -> 134 <= L -> (N.of_nat (length rs) < u64_max)%N ->
  traces C c rs c1 -> plain_io o -> step C o c1 = (r, c') -> ~ odd o r /\ r <> Diverge.
Proof.
  intros HC He HL Hlen Ht Hp Hs. pose proof (traces_run C c rs c1 Ht) as Hrun. split.
  - intros [(b & n & -> & Hb & -> & Hn)|(dst & n & d & -> & Hd & -> & ->)].
    + destruct (C20_write C L c (map fst rs) rs c1 b _ c' HC He ltac:(lia) (plain_no_close _ (traces_plain _ _ _ _ Ht))
        ltac:(rewrite map_length; exact Hlen) Hrun (fine_not_closed _ (traces_fine _ _ _ _ Ht)) Hs) as (H1 & H2 & H3 & _).
      set (f := fill (started (L - 133) rs)) in *. set (m := Nat.min (length b) (L - 133 - f)) in *. specialize (H3 HL Hb).
      assert (Em : n = m); [|lia].
      destruct (Nat.lt_ge_cases (f + m) (L - 133)) as [Hlt|Hge].
      * destruct (H1 Hlt) as [E _]. now injection E.
      * assert (Heq : f + m = L - 133) by lia. destruct (H2 Heq) as (x & k & fl & _ & _ & [E|[[[e E]|E] _]]); [now injection E|discriminate..].
    + pose proof (traces_last C c rs c1 _ _ _ Ht Hp Hs) as Hr.
      destruct (C15_only_authentic C L c (map fst (rs ++ [(OpRead dst, Ok (VRead 0 d))])) HC He) as (l & got & q & _ & Hf & _).
      rewrite Hr in Hf. cbn [fst] in Hf. apply Hd. eapply fifo_progress; [exact Hf|]. apply in_or_app. right. left. reflexivity.
  - destruct (established_recv C L c HC He) as (_ & (Hw & _) & _).
    assert (Hw1 : rd_wf (cn_rd c1)).
    { clear - Ht Hw. induction Ht as [|o v c c1 rs c2 _ Hs _ IH]; [exact Hw|]. apply IH.
      pose proof (step_ends C o c Hw) as G. rewrite Hs in G. apply G. }
    pose proof (step_ends C o c1 Hw1) as G. rewrite Hs in G. destruct G as [G _]. intros ->. exact (G eq_refl).
Qed.

(** Whatever the peer and the transport do: a program is the sequence of its [write], [flush] and [read] calls.  Either
    every call did all that was asked for - then the connection accepted exactly the bytes to be written, in order, and the
    program got exactly what the [read]s returned - or the program ended with the error of a [write], [flush] or [read], that
    error unchanged.  The loops have no failure of their own: [write_all] never panics because of [Ok(0)], [read_exact] never
    reports [UnexpectedEof], and both end. *)
Theorem C62_loops : forall C L c l os c', crypto_ok C -> established C L c -> 134 <= L -> (N.of_nat (effort l) <= u64_max)%N ->
  program C l c = (os, c') ->
  exists rs, run C (map fst rs) c = (rs, c') /\ Forall plain_io (map fst rs) /\ length rs <= effort l /\
    ((Forall2 filled l os /\ Forall (fun p => exists v, snd p = Ok v) rs /\ accepted rs = written l /\ read_bytes rs = returned os) \/
     exists l1 l2 os1 o rs1 q r, l = l1 ++ l2 /\ os = os1 ++ [o] /\ Forall2 filled l1 os1 /\
       rs = rs1 ++ [(q, r)] /\ Forall (fun p => exists v, snd p = Ok v) rs1 /\ passed_on r o /\
       prefix (accepted rs) (written l) /\ prefix (returned os1) (read_bytes rs)).
Proof.
  intros C L c l os c' HC He HL Hmax H.
  destruct (program_traces C l c os c' H) as [(rs & F & T & Ln & A & R & Z)|(l1 & k & l2 & os1 & o & rs1 & c1 & q & r & E1 & E2 & F & T & S1 & Ln & (X & Y) & P & Q & _ & _ & N1)].
  - exists rs. split; [exact (traces_run _ _ _ _ T)|]. split; [exact (traces_plain _ _ _ _ T)|]. split; [exact Ln|].
    left. split; [exact F|]. split; [exact (traces_fine _ _ _ _ T)|]. auto.
  - exists (rs1 ++ [(q, r)]). split; [exact (traces_last _ _ _ _ _ _ _ T X S1)|].
    split. { rewrite map_app. apply Forall_app. split; [exact (traces_plain _ _ _ _ T)|constructor; [exact X|constructor]]. }
    split; [rewrite app_length; cbn; lia|]. right. exists l1, (k :: l2), os1, o, rs1, q, r.
    destruct (never_odd C L c rs1 c1 q r c' HC He HL ltac:(lia) T X S1) as [No Nd].
    destruct Y as [Y|[[Y _]|Y]]; [|contradiction|contradiction].
    assert (Ea : accepted [(q, r)] = []) by (destruct r as [v| | | |]; [destruct Y|destruct q; reflexivity..]).
    assert (Er : read_bytes [(q, r)] = []) by (destruct r as [v| | | |]; [destruct Y|destruct q; reflexivity..]).
    rewrite accepted_app, read_bytes_app, Ea, Er, !app_nil_r.
    split; [exact E1|]. split; [exact E2|]. split; [exact F|]. split; [reflexivity|]. split; [exact (traces_fine _ _ _ _ T)|]. auto.
Qed.

Lemma sends_or_faults C L c rs c1 q r c' : crypto_ok C -> established C L c -> 134 <= L -> (N.of_nat (length rs) < u64_max)%N ->
  traces C c rs c1 -> plain_io q -> receives q = false -> step C q c1 = (r, c') -> (exists v, r = Ok v) \/ io_fault r.
Proof.
  intros HC He HL Hlen T X Hq S1.
  destruct (after_calls C L c (map fst rs) rs c1 HC He ltac:(lia) (plain_no_close _ (traces_plain _ _ _ _ T)) (traces_run _ _ _ _ T))
    as (pend & Hs & _ & _ & _ & Hcnt & Hop). rewrite map_length in Hcnt.
  specialize (Hop (fine_not_closed _ (traces_fine _ _ _ _ T))).
  destruct (transmit_step C L c1 q r c' pend HC Hs Hq S1) as (Ht & _). rewrite Hop in Ht.
  assert (Hemit : forall rec b s o s', (t_next s < u64_max)%N -> emit rec b s = (o, s') -> o = Ok tt \/ io_fault o).
  { intros rec b s o s' Hn Hem. unfold emit in Hem. apply N.ltb_lt in Hn. rewrite Hn in Hem.
    unfold tx_write_all in Hem. destruct (tx_wr (t_tx s)) as [|[| |] w]; cbn [SpecEndpoint.io_error] in Hem.
    1,2: destruct b; [|apply pair_equal_spec in Hem as [<- _]; now left];
      unfold tx_flush in Hem; cbn [tx_fl] in Hem; destruct (tx_fl (t_tx s)) as [|[| |] fl]; cbn [SpecEndpoint.io_error] in Hem;
      apply pair_equal_spec in Hem as [<- _]; (now left) || (right; left; eauto; fail) || (right; right; reflexivity).
    all: apply pair_equal_spec in Hem as [<- _]; right; (left; eexists; reflexivity) || (right; reflexivity). }
  assert (Hdata : forall s o s', (t_next s < u64_max)%N -> emit_data C (write_key c1) (write_iv c1) s = (o, s') -> o = Ok tt \/ io_fault o).
  { intros s o s' Hn Hem. unfold emit_data in Hem. destruct (t_data s); [eapply Hemit; eauto|].
    apply pair_equal_spec in Hem as [<- _]. now left. }
  assert (Hres : forall (o : outcome tls_error unit) v, o = Ok tt \/ io_fault o -> (exists w, result_of o v = Ok w) \/ io_fault (result_of o v)).
  { intros o v [-> | [[k ->] | ->]]; cbn; [left; eauto|right; left; eauto|right; right; reflexivity]. }
  assert (Hn : (t_next (sender_of c1) < u64_max)%N).
  { unfold sender_of. cbn [t_next]. unfold wst in Hcnt. lia. }
  destruct X as [->|[(b & -> & _)|(b & -> & _)]]; [| |discriminate]; cbn [transmit] in Ht.
  - destruct (emit_data _ _ _ (sender_of c1)) as [o s1] eqn:Ee. apply pair_equal_spec in Ht as [<- _]. apply Hres. eapply Hdata; eauto.
  - match type of Ht with context [if ?x then _ else _] => destruct x end; [|apply pair_equal_spec in Ht as [<- _]; eauto].
    match type of Ht with context [emit_data ?a ?b ?d ?s] => destruct (emit_data a b d s) as [o s1] eqn:Ee end.
    apply pair_equal_spec in Ht as [<- _]. apply Hres. eapply Hdata; [|exact Ee]. exact Hn.
Qed.

(** With a transport that works only a [read] can fail. *)
Lemma program_good C L lim c l os c' : crypto_ok C -> established C L c -> transport_succeeds c ->
  134 <= L <= 133 + lim -> (N.of_nat lim < 65519)%N -> (N.of_nat (effort l) <= u64_max)%N -> program C l c = (os, c') ->
  (exists rs, Forall2 filled l os /\ traces C c rs c' /\ read_bytes rs = returned os /\
     exists new ds rest, sent_log c' = sent_log c ++ new /\
       peer_read C lim (write_key c) (write_iv c) 0 (wire new) = (ds, Pending []) /\
       Forall (fun d => fst d = ty_data) ds /\ concat (map snd ds) ++ rest = written l /\ length rest < L - 133 /\
       (forall l1, l = l1 ++ [Flush] -> rest = [])) \/
  exists l1 l2 os1 o rs1 c1 q r, l = l1 ++ l2 /\ os = os1 ++ [o] /\ Forall2 filled l1 os1 /\ traces C c rs1 c1 /\ step C q c1 = (r, c') /\
    plain_io q /\ receives q = true /\ length (read_bytes rs1) < wanted l /\ prefix (returned os1) (read_bytes rs1) /\ passed_on r o.
Proof.
  intros HC He Htx HL Hlim Hmax H.
  destruct (program_traces C l c os c' H) as [(rs & F & T & Ln & A & R & Z)|(l1 & k & l2 & os1 & o & rs1 & c1 & q & r & E1 & E2 & F & T & S1 & Ln & (X & Y) & P & Q & R & W & N1)].
  2:{ right. destruct (never_odd C L c rs1 c1 q r c' HC He ltac:(lia) ltac:(lia) T X S1) as [No Nd].
    destruct Y as [Y|[[Y _]|Y]]; [|contradiction|contradiction].
    destruct (receives q) eqn:Hq; [exists l1, (k :: l2), os1, o, rs1, c1, q, r; do 6 (split; [assumption|]); split; [exact Hq|]; split; [now apply W|]; split; assumption|].
    exfalso. pose proof (traces_last _ _ _ _ _ _ _ T X S1) as Hrun.
    assert (Hpl : Forall plain_io (map fst (rs1 ++ [(q, r)]))).
    { rewrite map_app. apply Forall_app. split; [exact (traces_plain _ _ _ _ T)|constructor; [exact X|constructor]]. }
    destruct (sends_or_faults C L c rs1 c1 q r c' HC He ltac:(lia) ltac:(lia) T X Hq S1) as [[v ->]|Hio]; [destruct Y|].
    destruct (C13_peer_gets_what_was_accepted C L lim c (map fst (rs1 ++ [(q, r)])) _ c' HC He ltac:(lia) Hlim Htx (plain_no_close _ Hpl)
      ltac:(rewrite map_length, app_length; cbn; lia) Hrun) as (_ & _ & _ & _ & _ & _ & _ & _ & _ & G).
    apply Forall_app in G as [_ G]. apply Forall_cons_iff in G as [G _]. apply G. split; [|exact Hio]. cbn [fst].
    destruct X as [->|[(b & -> & _)|(b & -> & _)]]; try reflexivity. discriminate. }
  left. pose proof (traces_run _ _ _ _ T) as Hrun. pose proof (traces_plain _ _ _ _ T) as Hpl.
  exists rs. split; [exact F|]. split; [exact T|]. split; [exact R|].
  destruct (C13_peer_gets_what_was_accepted C L lim c (map fst rs) rs c' HC He ltac:(lia) Hlim Htx (plain_no_close _ Hpl)
      ltac:(rewrite map_length; lia) Hrun) as (new & ds & rest & G1 & G2 & G3 & G4 & G5 & G6 & _).
  exists new, ds, rest. rewrite A in G4. split; [exact G1|]. split; [exact G2|]. split; [exact G3|]. split; [exact G4|].
  split.
  { rewrite G5. destruct (after_calls C L c (map fst rs) rs c' HC He ltac:(lia) (plain_no_close _ Hpl) Hrun) as (pend & Hs & Hf & _).
    rewrite <- Hf. destruct Hs as (_ & _ & Hp). destruct pend as [pl|]; cbn [content length]; [|lia]. destruct Hp as (_ & _ & _ & Hp & _). lia. }
  intros l1 El. destruct (Z l1 El) as (rs1 & r & Er). exact (G6 rs1 r Er).
Qed.

Lemma filled_returned l os : Forall2 filled l os -> length (returned os) = wanted l.
Proof.
  intros F. unfold returned, wanted, list_sum. induction F as [|k o l os (b & -> & Hb) _ IH]; [reflexivity|].
  cbn [map concat fold_right]. rewrite app_length, IH. destruct k; [subst b; reflexivity..|]. lia.
Qed.

(** With a transport that works, whatever arrives meanwhile: a program that only writes and flushes succeeds; the peer has
    what was written up to less than one record, and all of it after a flush. *)
Theorem C62_writes : forall C L lim c l os c', crypto_ok C -> established C L c -> transport_succeeds c ->
  134 <= L <= 133 + lim -> (N.of_nat lim < 65519)%N -> (N.of_nat (effort l) <= u64_max)%N -> wanted l = 0 ->
  program C l c = (os, c') ->
  Forall2 filled l os /\
  exists new ds rest, sent_log c' = sent_log c ++ new /\
    peer_read C lim (write_key c) (write_iv c) 0 (wire new) = (ds, Pending []) /\
    Forall (fun d => fst d = ty_data) ds /\ concat (map snd ds) ++ rest = written l /\ length rest < L - 133 /\
    (forall l1, l = l1 ++ [Flush] -> rest = []).
Proof.
  intros C L lim c l os c' HC He Htx HL Hlim Hmax H0 H.
  destruct (program_good C L lim c l os c' HC He Htx HL Hlim Hmax H)
    as [(rs & F & _ & _ & G)|(l1 & l2 & os1 & o & rs1 & c1 & q & r & _ & _ & _ & _ & _ & _ & _ & W & _)]; [split; [exact F|exact G]|lia].
Qed.

Lemma plain_reads ops : Forall plain_io ops -> only_reads ops.
Proof. intros Ho. eapply Forall_impl; [|exact Ho]. cbn. intros o [->|[(b & -> & _)|(b & -> & _)]]; try discriminate; eauto. Qed.

(** The program failed at a [read]: then the stream is used up. *)
Lemma read_failed C L c srv rs1 c1 q r c' o : crypto_ok C -> established C L c -> steady c ->
  incoming c = server_wire C (read_key c) (read_iv c) 0 srv -> Forall (served C (room c)) srv -> (N.of_nat (length srv) <= u64_max)%N ->
  traces C c rs1 c1 -> step C q c1 = (r, c') -> plain_io q -> receives q = true -> passed_on r o ->
  o = Err (Other IoError) /\ read_bytes rs1 = concat (data_of (map fst srv)).
Proof.
  intros HC He Hst Hin Hsrv Hcnt T S1 X Hq Y. pose proof (traces_last _ _ _ _ _ _ _ T X S1) as Hrun.
  assert (Hpl : Forall plain_io (map fst (rs1 ++ [(q, r)]))).
  { rewrite map_app. apply Forall_app. split; [exact (traces_plain _ _ _ _ T)|constructor; [exact X|constructor]]. }
  pose proof (C14_in_order C L c srv (map fst (rs1 ++ [(q, r)])) HC He Hst Hin Hsrv Hcnt) as G. cbv zeta in G.
  rewrite Hrun in G. cbn [fst] in G. destruct G as (_ & _ & _ & _ & _ & _ & G & _). apply Forall_app in G as [_ G].
  apply Forall_cons_iff in G as [G _]. cbn [fst snd] in G. destruct (G Hq) as [[v ->] | ->]; [destruct Y|]. split; [exact Y|].
  pose proof (C14_reads C L c srv (map fst (rs1 ++ [(q, Err IoError)])) HC He Hst Hin Hsrv Hcnt (plain_reads _ Hpl)) as G2. cbv zeta in G2.
  rewrite Hrun in G2. cbn [fst] in G2. destruct G2 as [_ G2].
  rewrite <- G2; [|apply Exists_exists; exists (q, Err IoError); split; [apply in_or_app; right; now left|auto]].
  rewrite read_bytes_app. assert (Er : read_bytes [(q, Err IoError)] = []) by now destruct q. now rewrite Er, app_nil_r.
Qed.

(** With a transport that works and a server that sends its records and then ends its stream: a program that does not ask
    for more than the server sends succeeds; it gets the bytes that the server sent, in order, each call the number it asked
    for; and once it has flushed, the peer has exactly what it wrote. *)
Theorem C62_session : forall C L lim c l os c' srv, crypto_ok C -> established C L c -> steady c -> transport_succeeds c ->
  134 <= L <= 133 + lim -> (N.of_nat lim < 65519)%N -> (N.of_nat (effort l) <= u64_max)%N ->
  incoming c = server_wire C (read_key c) (read_iv c) 0 srv -> Forall (served C (room c)) srv -> (N.of_nat (length srv) <= u64_max)%N ->
  wanted l <= length (concat (data_of (map fst srv))) ->
  program C l c = (os, c') ->
  Forall2 filled l os /\
  returned os = firstn (wanted l) (concat (data_of (map fst srv))) /\
  exists new ds rest, sent_log c' = sent_log c ++ new /\
    peer_read C lim (write_key c) (write_iv c) 0 (wire new) = (ds, Pending []) /\
    Forall (fun d => fst d = ty_data) ds /\ concat (map snd ds) ++ rest = written l /\ length rest < L - 133 /\
    (forall l1, l = l1 ++ [Flush] -> rest = []).
Proof.
  intros C L lim c l os c' srv HC He Hst Htx HL Hlim Hmax Hin Hsrv Hcnt Hw H.
  destruct (program_good C L lim c l os c' HC He Htx HL Hlim Hmax H)
    as [(rs & F & T & R & G)|(l1 & l2 & os1 & o & rs1 & c1 & q & r & _ & _ & _ & T & S1 & X & Hq & W & _ & Y)].
  2:{ destruct (read_failed C L c srv rs1 c1 q r c' o HC He Hst Hin Hsrv Hcnt T S1 X Hq Y) as [_ E]. rewrite E in W. lia. }
  split; [exact F|]. split; [|exact G].
  pose proof (C14_reads C L c srv (map fst rs) HC He Hst Hin Hsrv Hcnt (plain_reads _ (traces_plain _ _ _ _ T))) as G2.
  cbv zeta in G2. rewrite (traces_run _ _ _ _ T) in G2. cbn [fst] in G2. destruct G2 as [[z Hz] _]. rewrite R in Hz.
  rewrite Hz, <- (filled_returned _ _ F), firstn_app, Nat.sub_diag, firstn_all. cbn [firstn]. now rewrite app_nil_r.
Qed.

(** One that asks for more ends with the error that [read] gives at the end of the stream, [IoError] and not
    [UnexpectedEof]; the calls before it were served. *)
Theorem C62_too_much : forall C L lim c l os c' srv, crypto_ok C -> established C L c -> steady c -> transport_succeeds c ->
  134 <= L <= 133 + lim -> (N.of_nat lim < 65519)%N -> (N.of_nat (effort l) <= u64_max)%N ->
  incoming c = server_wire C (read_key c) (read_iv c) 0 srv -> Forall (served C (room c)) srv -> (N.of_nat (length srv) <= u64_max)%N ->
  length (concat (data_of (map fst srv))) < wanted l ->
  program C l c = (os, c') ->
  exists l1 l2 os1, l = l1 ++ l2 /\ os = os1 ++ [Err (Other IoError)] /\ Forall2 filled l1 os1 /\
    returned os1 = firstn (wanted l1) (concat (data_of (map fst srv))) /\ wanted l1 <= length (concat (data_of (map fst srv))).
Proof.
  intros C L lim c l os c' srv HC He Hst Htx HL Hlim Hmax Hin Hsrv Hcnt Hw H.
  destruct (program_good C L lim c l os c' HC He Htx HL Hlim Hmax H)
    as [(rs & F & T & R & G)|(l1 & l2 & os1 & o & rs1 & c1 & q & r & El & Eo & F & T & S1 & X & Hq & W & Pr & Y)].
  - exfalso. pose proof (C14_reads C L c srv (map fst rs) HC He Hst Hin Hsrv Hcnt (plain_reads _ (traces_plain _ _ _ _ T))) as G2.
    cbv zeta in G2. rewrite (traces_run _ _ _ _ T) in G2. cbn [fst] in G2. destruct G2 as [[z Hz] _]. rewrite R in Hz.
    rewrite Hz, app_length, (filled_returned _ _ F) in Hw. lia.
  - destruct (read_failed C L c srv rs1 c1 q r c' o HC He Hst Hin Hsrv Hcnt T S1 X Hq Y) as [-> E]. rewrite E in Pr.
    exists l1, l2, os1. split; [exact El|]. split; [exact Eo|]. split; [exact F|]. destruct Pr as [z Hz].
    rewrite Hz, <- (filled_returned _ _ F), firstn_app, Nat.sub_diag, firstn_all, app_length. cbn [firstn]. rewrite app_nil_r. split; [reflexivity|lia].
Qed.

(** ** Concrete cases *)

Definition loop_program : list io_call := [WriteAll (repeat x41 400); ReadExact (zeros 1); Flush; ReadExact (zeros 2); WriteAll [x42]; Flush].

(** C62: the toy server sends "hi", tickets, nothing, "!", one byte at a time; 400 bytes go out in records of 167 bytes; a program
    that asks for one byte more ends with [IoError]. *)
Example C62_case : let c := conn_in their_wire in
  established toy 300 c /\ chunked (rd_rx (cn_rd c)) /\ Forall (served toy 400) some_records /\ wanted loop_program = 3 /\
  fst (program toy loop_program c) = [Ok []; Ok [x68]; Ok []; Ok [x69; x21]; Ok []; Ok []] /\
  fst (program toy (loop_program ++ [ReadExact (zeros 1); Flush]) c) = [Ok []; Ok [x68]; Ok []; Ok [x69; x21]; Ok []; Ok []; Err (Other IoError)] /\
  map (@length byte) (map snd (fst (peer_read toy rfc_limit (write_key c) (write_iv c) 0 (wire (skipn 4 (sent_log (snd (program toy loop_program c)))))))) = [167; 167; 66; 1].
Proof.
  intros c. split; [apply conn_in_established|]. split; [unfold c; rewrite conn_in_rx; apply trickle_chunked|].
  split; [apply some_records_served|]. split; [reflexivity|]. split; [vm_compute; reflexivity|]. split; vm_compute; reflexivity.
Qed.

Print Assumptions C62_loops.
Print Assumptions C62_writes.
Print Assumptions C62_session.
Print Assumptions C62_too_much.
