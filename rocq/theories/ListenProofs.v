(** * The machine of SpecReceiver.v is deterministic and never stuck *)
From Coq Require Import String List NArith Arith Bool Lia ZArith.
From Coq.Strings Require Import Byte.
From Coq Require Import ZifyBool ZifyNat ZifyN.
From Verif Require Import Base ParseBuffer Buffer Codes Extensions Crypto KeySchedule Config Handshake Record
  Transport Connection Api SpecWire SpecCodes SpecMessages SpecKeys SpecRecord SpecRead SpecSend DecryptProofs ReadProofs
  WireProofs SpecHandshake AcceptProofs SpecComplete LocalProofs MessageProofs SpecDefect DefectProofs SpecFailure FailureProofs CaseProofs SpecReceiver ReceiverProofs.
Import ListNotations.
Local Open Scope list_scope.

Section Unique.
Context (C : crypto).

Lemma byte_inj a b : Byte.to_N a = Byte.to_N b -> a = b.
Proof. intros H. apply (f_equal Byte.of_N) in H. rewrite !Byte.of_to_N in H. now injection H. Qed.

Lemma first_message b b' m m' j j' : understood C b m -> understood C b' m' -> b ++ j = b' ++ j' ->
  b = b' /\ j = j' /\ (m = M_NewSessionTicket <-> m' = M_NewSessionTicket).
Proof.
  intros H H' E. destruct (read_kind C [] [] b m j H) as (h & R & K). destruct (read_kind C [] [] b' m' j' H') as (h' & R' & K').
  rewrite E in R. rewrite R in R'. apply pair_equal_spec in R' as [R' _].
  cbn [app] in R'. injection R' as Eh Eb. subst b' h'. split; [reflexivity|]. split; [now apply app_inv_head in E|].
  now rewrite K, K'.
Qed.

Lemma alert_unique b l d l' d' : is_alert b l d -> is_alert b l' d' -> l = l' /\ d = d'.
Proof. intros H H'. apply alert_fwd in H, H'. split; congruence. Qed.

Lemma alert_not_bad b l d e : is_alert b l d -> bad_alert b e -> False.
Proof. intros H H'. apply alert_fwd in H. apply bad_alert_fwd in H'. congruence. Qed.

Lemma bad_alert_unique b e e' : bad_alert b e -> bad_alert b e' -> e = e'.
Proof. intros H H'. apply bad_alert_fwd in H, H'. congruence. Qed.

Lemma bad_alert_error b e : bad_alert b e -> e <> ConnectionClosed.
Proof. intros H. destruct H; discriminate. Qed.

Lemma faulty_unique b e e' : faulty C b e -> faulty C b e' -> e = e'.
Proof. intros H H'. apply (faulty_parse C []) in H as [q H], H' as [q' H']. congruence. Qed.

Lemma faulty_no_message b m j e : faulty C (b ++ j) e -> understood C b m -> False.
Proof.
  intros H Hm. destruct (understood_parses C b m Hm) as (h & Hp & _). apply (faulty_parse C []) in H as [q H].
  replace (at_pos [] (b ++ j) []) with (at_pos [] b j) in H by (unfold at_pos; now rewrite app_nil_r). rewrite Hp in H. discriminate.
Qed.

(** What the messages of a record come to, computed. *)
Definition pass_verdict (bs : bytes) : verdict :=
  match hs_pass C (S (length bs)) [] (pb_new bs) with Ok _ => V_nothing | Panic x => V_panic x | Err e => V_error e | _ => V_closed end.

Lemma content_handshake bs v : content_is C ty_handshake bs v -> v = pass_verdict bs.
Proof.
  intros H. inversion H; subst; unfold pass_verdict; try discriminate.
  - rewrite (pass_all C [] ms _ ltac:(assumption) eq_refl). reflexivity.
  - rewrite (pass_message C [] ms b m junk _ ltac:(assumption) eq_refl ltac:(eassumption) ltac:(assumption)). reflexivity.
  - rewrite (pass_garbled C [] ms junk _ e ltac:(assumption) eq_refl ltac:(assumption) ltac:(assumption)). reflexivity.
  - exfalso. match goal with H : ~ In _ _ |- _ => apply H end. cbn. tauto.
Qed.

Lemma content_unique t b v v' : content_is C t b v -> content_is C t b v' -> v = v'.
Proof.
  intros H H'. destruct (byte_eq_dec t ty_handshake) as [->|Hne].
  - apply content_handshake in H, H'. congruence.
  - assert (Hin : forall x, In x [ty_ccs; ty_alert; ty_data] -> In (Byte.to_N x) [20; 21; 22; 23]%N) by (intros x Hx; cbn in Hx; repeat destruct Hx as [<-|Hx]; cbn; tauto).
    destruct H; try contradiction; inversion H'; subst; try contradiction; try reflexivity;
      try (exfalso; match goal with G : ~ In _ _ |- _ => apply G, Hin; cbn; tauto end);
      repeat match goal with
      | G : is_alert ?b _ _, G' : is_alert ?b _ _ |- _ => destruct (alert_unique _ _ _ _ _ G G'); subst; clear G'
      | G : is_alert ?b _ _, G' : bad_alert ?b _ |- _ => destruct (alert_not_bad _ _ _ _ G G')
      | G : bad_alert ?b _, G' : bad_alert ?b _ |- _ => rewrite (bad_alert_unique _ _ _ G G'); reflexivity
      end; try contradiction; try reflexivity.
Qed.

Lemma record_unique key iv n h f v v' n1 n1' : record_is C key iv n h f v n1 -> record_is C key iv n h f v' n1' ->
  v = v' /\ n1 = n1'.
Proof.
  intros H H'. 
  assert (Hz : forall k t b, rfc_unpad (repeat x00 (S k)) = Some (t, b) -> False) by (intros k t b E; rewrite unpad_none_zeros in E; discriminate).
  destruct H; inversion H'; subst;
  repeat match goal with
  | G : hd_error ?h = Some _, G' : hd_error ?h = Some _ |- _ => rewrite G in G'; first [discriminate G'|clear G']
  | G : rfc_open C ?k ?i ?n ?h ?f = _, G' : rfc_open C ?k ?i ?n ?h ?f = _ |- _ => rewrite G in G'; first [discriminate G'|injection G' as G'; try subst]
  | G : rfc_unpad [] = Some _ |- _ => discriminate G
  | G : rfc_unpad (repeat _ (S _)) = Some _ |- _ => destruct (Hz _ _ _ G)
  | G : rfc_unpad (x00 :: repeat _ _) = Some _ |- _ => destruct (Hz _ _ _ G)
  | G : rfc_unpad ?i = Some _, G' : rfc_unpad ?i = Some _ |- _ => rewrite G in G'; injection G' as G' G''; subst
  | G : content_is C ?t ?b _, G' : content_is C ?t ?b _ |- _ =>
      pose proof (content_unique _ _ _ _ G G'); subst; clear G'
  | G : is_alert ?b _ _, G' : is_alert ?b _ _ |- _ => destruct (alert_unique _ _ _ _ _ G G'); subst; clear G'
  | G : is_alert ?b _ _, G' : bad_alert ?b _ |- _ => destruct (alert_not_bad _ _ _ _ G G')
  | G : bad_alert ?b _, G' : bad_alert ?b _ |- _ => pose proof (bad_alert_unique _ _ _ G G'); subst; clear G'
  end; try contradiction; try congruence; try lia;
  try (split; reflexivity); try (split; [assumption|reflexivity]).
  all: try match goal with
  | G : faulty C (?b ++ ?j) _, U : ticket C ?b |- _ => destruct (faulty_no_message _ _ _ _ G U)
  | G : faulty C (?b ++ ?j) _, U : understood C ?b _ |- _ => destruct (faulty_no_message _ _ _ _ G U)
  | G : faulty C ?b _, G' : faulty C ?b _ |- _ => rewrite (faulty_unique _ _ _ G G'); split; reflexivity
  end.
  all: try match goal with
  | E : ?b ++ ?j = ?b' ++ ?j', U : ticket C ?b, U' : understood C ?b' ?m |- _ => destruct (first_message _ _ _ _ _ _ U U' E) as (_ & _ & K); exfalso; tauto
  | E : ?b ++ ?j = ?b' ++ ?j', U : understood C ?b ?m, U' : ticket C ?b' |- _ => destruct (first_message _ _ _ _ _ _ U U' E) as (_ & _ & K); exfalso; tauto
  end.
Qed.

Lemma split_unique h f rest h' f' rest' : framed h f -> framed h' f' -> h ++ f ++ rest = h' ++ f' ++ rest' ->
  h = h' /\ f = f' /\ rest = rest'.
Proof.
  intros [Hl Hn] [Hl' Hn'] E.
  assert (Eh : h = h') by (apply (f_equal (firstn 5)) in E; rewrite <- Hl in E at 1; rewrite <- Hl' in E; now rewrite !firstn_app, !Nat.sub_diag, !firstn_O, !app_nil_r, !firstn_all in E).
  subst h'. apply app_inv_head in E. assert (Ef : length f = length f') by lia.
  assert (Eff : f = f') by (apply (f_equal (firstn (length f))) in E; rewrite Ef in E at 2; now rewrite !firstn_app, !Nat.sub_diag, !firstn_O, !app_nil_r, !firstn_all in E).
  subst f'. now apply app_inv_head in E.
Qed.

Lemma readable_unique room h f rest h' f' rest' : readable room (h, f) -> readable room (h', f') -> h ++ f ++ rest = h' ++ f' ++ rest' ->
  h = h' /\ f = f' /\ rest = rest'.
Proof. intros [H _] [H' _]. exact (split_unique h f rest h' f' rest' H H'). Qed.

Lemma head_unique (h h' w w' : bytes) : length h = 5 -> length h' = 5 -> h ++ w = h' ++ w' -> h = h' /\ w = w'.
Proof.
  intros Hl Hl' E. assert (Eh : h = h') by (apply (f_equal (firstn 5)) in E; rewrite <- Hl in E at 1; rewrite <- Hl' in E; now rewrite !firstn_app, !Nat.sub_diag, !firstn_O, !app_nil_r, !firstn_all in E).
  subst h'. now apply app_inv_head in E.
Qed.

Lemma hears_unique key iv room n w v n1 w1 : hears C key iv room n w v n1 w1 ->
  forall v' n1' w1', hears C key iv room n w v' n1' w1' -> v = v' /\ n1 = n1' /\ w1 = w1'.
Proof.
  assert (Hlen : forall h f (rest : bytes), readable room (h, f) -> length (h ++ f ++ rest) < 5 -> False).
  { intros h f rest ((Hl & _) & _) H. cbn [fst] in Hl. rewrite app_length in H. lia. }
  assert (Hcut : forall h f rest h' k w, readable room (h, f) -> length h' = 5 -> h ++ f ++ rest = h' ++ w -> be_val (skipn 3 h') = N.of_nat k ->
     type_known h' /\ k <= room /\ k <= length w).
  { intros h f rest h' k w0 ((Hl & Hn) & Ht & Hr) Hl' E Hk. cbn [fst snd] in *. destruct (head_unique h h' _ _ Hl Hl' E) as [-> <-].
    rewrite app_length. assert (k = length f) by lia. split; [exact Ht|]. lia. }
  assert (Hty : forall h f rest h' w, readable room (h, f) -> length h' = 5 -> h ++ f ++ rest = h' ++ w -> type_known h').
  { intros h f rest h' w0 ((Hl & Hn) & Ht & Hr) Hl' E. cbn [fst snd] in *. now destruct (head_unique h h' _ _ Hl Hl' E) as [-> _]. }
  induction 1 as [n h f rest v n1 v0 n0 w0 Hr Hi Hp _ IH|n h f rest v n1 Hr Hi Hp|n w Hl|n h w Hl Ht|n h k w Hl Ht Hk Hroom|n h k w Hl Ht Hk Hroom Hw]; intros v' n' w' H'.
  - inversion H' as [? h' f' rest' v2 n2 ? ? ? Hr' Hi' Hp' Hh'|? h' f' rest' ? ? Hr' Hi' Hp'|? ? Hl'|? h' ? Hl' Ht'|? h' k' ? Hl' Ht' Hk' Hroom'|? h' k' ? Hl' Ht' Hk' Hroom' Hw']; subst.
    + match goal with E : h' ++ _ = _ |- _ => destruct (readable_unique room _ _ _ _ _ _ Hr' Hr E) as (-> & -> & ->) end.
      destruct (record_unique _ _ _ _ _ _ _ _ _ Hi Hi') as [_ ->]. now apply IH.
    + match goal with E : h' ++ _ = _ |- _ => destruct (readable_unique room _ _ _ _ _ _ Hr' Hr E) as (-> & -> & ->) end.
      destruct (record_unique _ _ _ _ _ _ _ _ _ Hi Hi') as [A _]. congruence.
    + destruct (Hlen _ _ _ Hr Hl').
    + match goal with E : _ = _ |- _ => symmetry in E; now pose proof (Hty _ _ _ _ _ Hr Hl' E) end.
    + match goal with E : _ = h ++ _ |- _ => symmetry in E; pose proof (Hcut _ _ _ _ _ _ Hr Hl' E Hk') end; lia.
    + match goal with E : _ = h ++ _ |- _ => symmetry in E; pose proof (Hcut _ _ _ _ _ _ Hr Hl' E Hk') end; lia.
  - inversion H' as [? h' f' rest' v2 n2 ? ? ? Hr' Hi' Hp' Hh'|? h' f' rest' ? ? Hr' Hi' Hp'|? ? Hl'|? h' ? Hl' Ht'|? h' k' ? Hl' Ht' Hk' Hroom'|? h' k' ? Hl' Ht' Hk' Hroom' Hw']; subst.
    + match goal with E : h' ++ _ = _ |- _ => destruct (readable_unique room _ _ _ _ _ _ Hr' Hr E) as (-> & -> & ->) end.
      destruct (record_unique _ _ _ _ _ _ _ _ _ Hi Hi') as [A _]. congruence.
    + match goal with E : h' ++ _ = _ |- _ => destruct (readable_unique room _ _ _ _ _ _ Hr' Hr E) as (-> & -> & ->) end.
      destruct (record_unique _ _ _ _ _ _ _ _ _ Hi Hi') as [A ->]. auto.
    + destruct (Hlen _ _ _ Hr Hl').
    + match goal with E : _ = _ |- _ => symmetry in E; now pose proof (Hty _ _ _ _ _ Hr Hl' E) end.
    + match goal with E : _ = h ++ _ |- _ => symmetry in E; pose proof (Hcut _ _ _ _ _ _ Hr Hl' E Hk') end; lia.
    + match goal with E : _ = h ++ _ |- _ => symmetry in E; pose proof (Hcut _ _ _ _ _ _ Hr Hl' E Hk') end; lia.
  - inversion H' as [? h' f' rest' v2 n2 ? ? ? Hr' Hi' Hp' Hh'|? h' f' rest' ? ? Hr' Hi' Hp'|? ? Hl'|? h' ? Hl' Ht'|? h' k' ? Hl' Ht' Hk' Hroom'|? h' k' ? Hl' Ht' Hk' Hroom' Hw']; subst;
      try (destruct (Hlen _ _ _ Hr' Hl)); try (rewrite app_length in Hl; lia). split; [reflexivity|auto].
  - inversion H' as [? h' f' rest' v2 n2 ? ? ? Hr' Hi' Hp' Hh'|? h' f' rest' ? ? Hr' Hi' Hp'|? ? Hl'|? h' ? Hl' Ht'|? h' k' ? Hl' Ht' Hk' Hroom'|? h' k' ? Hl' Ht' Hk' Hroom' Hw']; subst.
    + match goal with E : h' ++ _ = _ |- _ => now pose proof (Hty _ _ _ _ _ Hr' Hl E) end.
    + match goal with E : h' ++ _ = _ |- _ => now pose proof (Hty _ _ _ _ _ Hr' Hl E) end.
    + rewrite app_length in Hl'. lia.
    + match goal with E : h' ++ _ = _ |- _ => destruct (head_unique _ _ _ _ Hl' Hl E) as [-> ->] end. split; [reflexivity|auto].
    + match goal with E : h' ++ _ = _ |- _ => destruct (head_unique _ _ _ _ Hl' Hl E) as [-> ->] end. contradiction.
    + match goal with E : h' ++ _ = _ |- _ => destruct (head_unique _ _ _ _ Hl' Hl E) as [-> ->] end. contradiction.
  - inversion H' as [? h' f' rest' v2 n2 ? ? ? Hr' Hi' Hp' Hh'|? h' f' rest' ? ? Hr' Hi' Hp'|? ? Hl'|? h' ? Hl' Ht'|? h' k' ? Hl' Ht' Hk' Hroom'|? h' k' ? Hl' Ht' Hk' Hroom' Hw']; subst.
    + match goal with E : h' ++ _ = _ |- _ => pose proof (Hcut _ _ _ _ _ _ Hr' Hl E Hk) end; lia.
    + match goal with E : h' ++ _ = _ |- _ => pose proof (Hcut _ _ _ _ _ _ Hr' Hl E Hk) end; lia.
    + rewrite app_length in Hl'. lia.
    + match goal with E : h' ++ _ = _ |- _ => destruct (head_unique _ _ _ _ Hl' Hl E) as [-> ->] end. contradiction.
    + match goal with E : h' ++ _ = _ |- _ => destruct (head_unique _ _ _ _ Hl' Hl E) as [-> ->] end. split; [reflexivity|auto].
    + match goal with E : h' ++ _ = _ |- _ => destruct (head_unique _ _ _ _ Hl' Hl E) as [-> ->] end. lia.
  - inversion H' as [? h' f' rest' v2 n2 ? ? ? Hr' Hi' Hp' Hh'|? h' f' rest' ? ? Hr' Hi' Hp'|? ? Hl'|? h' ? Hl' Ht'|? h' k' ? Hl' Ht' Hk' Hroom'|? h' k' ? Hl' Ht' Hk' Hroom' Hw']; subst.
    + match goal with E : h' ++ _ = _ |- _ => pose proof (Hcut _ _ _ _ _ _ Hr' Hl E Hk) end; lia.
    + match goal with E : h' ++ _ = _ |- _ => pose proof (Hcut _ _ _ _ _ _ Hr' Hl E Hk) end; lia.
    + rewrite app_length in Hl'. lia.
    + match goal with E : h' ++ _ = _ |- _ => destruct (head_unique _ _ _ _ Hl' Hl E) as [-> ->] end. contradiction.
    + match goal with E : h' ++ _ = _ |- _ => destruct (head_unique _ _ _ _ Hl' Hl E) as [-> ->] end. lia.
    + split; [reflexivity|auto].
Qed.

(** ** Never stuck *)

Lemma content_total t b : exists v, content_is C t b v.
Proof.
  destruct (in_dec N.eq_dec (Byte.to_N t) [20; 21; 22; 23]%N) as [Hin|Hout]; [|eexists; now apply ci_type].
  assert (Ht : t = ty_ccs \/ t = ty_alert \/ t = ty_handshake \/ t = ty_data) by (clear -Hin; destruct t; cbn in Hin; intuition (auto; discriminate)).
  destruct Ht as [->|[->|[->| ->]]].
  - eexists. apply ci_ccs.
  - destruct (alert_cases b) as [(l & d & H)|(e & H)]; [|eexists; eapply ci_bad_alert; exact H].
    assert (Hd : d = AD_CloseNotify \/ d <> AD_CloseNotify) by (destruct d; [now left|right; discriminate..]).
    destruct Hd as [->|Hd]; eexists; [eapply ci_close|eapply ci_alert]; eauto.
  - destruct (tickets_cases C (S (length b)) b ltac:(lia)) as [(ms & Hms & ->)|[(ms & b' & m & j & Hms & -> & Hu & Hm)|(ms & j & e & Hms & -> & Hj & Hu)]]; eexists.
    + now apply ci_tickets.
    + eapply ci_message; eauto.
    + now apply (ci_garbled C ms j e).
  - eexists. apply ci_data.
Qed.

Lemma record_total key iv n h f : type_known h -> exists v n', record_is C key iv n h f v n'.
Proof.
  intros Hk. destruct h as [|ty h]; [contradiction|]. cbn [type_known] in Hk.
  assert (Hty : ty = x00 \/ ty = ty_ccs \/ ty = ty_alert \/ ty = ty_handshake \/ ty = ty_data) by (destruct ty; cbn in Hk; intuition (auto; discriminate)).
  destruct Hty as [->|[->|[->|[->| ->]]]].
  - do 2 eexists. now apply ri_invalid.
  - do 2 eexists. now apply ri_ccs.
  - destruct (alert_cases f) as [(l & d & H)|(e & H)]; [|do 2 eexists; eapply ri_bad_alert; [reflexivity|exact H]].
    assert (Hd : d = AD_CloseNotify \/ d <> AD_CloseNotify) by (destruct d; [now left|right; discriminate..]).
    destruct Hd as [->|Hd]; do 2 eexists; [eapply ri_close|eapply ri_alert]; eauto; reflexivity.
  - destruct (bytes_cases C f) as [[e Hu]|(b & m & junk & -> & Hu)]; [do 2 eexists; apply (ri_garbled C key iv n _ f e); [reflexivity|exact Hu]|].
    assert (Hm : m = M_NewSessionTicket \/ m <> M_NewSessionTicket) by (destruct m; [right; discriminate|now left|right; discriminate..]).
    destruct Hm as [->|Hm]; do 2 eexists; [eapply ri_ticket; [reflexivity|reflexivity|exact Hu]|eapply ri_message; [reflexivity|reflexivity|exact Hu|exact Hm]].
  - destruct (rfc_open C key iv n (ty_data :: h) f) as [inner|] eqn:Ho; [|do 2 eexists; now apply ri_forged].
    destruct (rfc_unpad inner) as [[ct content]|] eqn:Hu.
    2:{ destruct (unpad_none inner Hu) as [->|(k & ->)]; do 2 eexists; [now apply ri_empty|eapply ri_zeros; eauto; reflexivity]. }
    destruct (content_total ct content) as (v & Hv). destruct (counted v) eqn:Ec.
    + destruct (N.lt_ge_cases n u64_max); do 2 eexists; [eapply ri_taken|eapply ri_exhausted]; eauto; reflexivity.
    + do 2 eexists. eapply ri_other; eauto; reflexivity.
Qed.

Lemma hears_total key iv room : forall k n w, length w < k -> exists v n' w', hears C key iv room n w v n' w' /\ passed v = false.
Proof.
  induction k as [|k IH]; intros n w Hk; [lia|].
  destruct (reading_cases room w) as [(e & He)|(h & f & rest & -> & Hf & Ht & Hr)].
  - destruct He; [exists (V_error IoError)|exists (V_error InvalidRecord)|exists (V_error InsufficientSpace)|exists (V_error IoError)];
      do 2 eexists; (split; [|reflexivity]); [now apply he_header|now apply he_type|eapply he_long; eassumption|eapply he_cut; eassumption].
  - destruct (record_total key iv n h f Ht) as (v & n1 & Hv). destruct (passed v) eqn:Ep.
    + destruct (IH n1 rest) as (v' & n' & w' & Hh & Hp); [rewrite !app_length in Hk; destruct Hf; lia|].
      exists v', n', w'. split; [|exact Hp]. eapply he_next; eauto. now split.
    + exists v, n1, rest. split; [|exact Ep]. eapply he_record; eauto. now split.
Qed.

End Unique.

(** ** Calls *)

Lemma handle_suffix ops : forall q, exists got, q = got ++ snd (handle ops q).
Proof.
  induction ops as [|o ops IH]; intros q; [now exists []|]. cbn [handle].
  assert (G : forall q1 shown, (exists g, q = g ++ q1) -> exists got, q = got ++ snd (let '(vs, q2) := handle ops q1 in (shown :: vs, q2))).
  { intros q1 shown (g & E). destruct (IH q1) as (g1 & E1). exists (g ++ g1). rewrite E at 1. rewrite E1 at 1. rewrite <- app_assoc. f_equal. f_equal.
    clear. now destruct (handle ops q1). }
  destruct o; apply G; [now exists []|now exists []|eexists; symmetry; apply firstn_skipn|exists q; now rewrite app_nil_r|eexists; symmetry; apply firstn_skipn].
Qed.

Lemma take_total o q : receives o = true -> q <> [] \/ waits o = false -> exists r got q', succeeds r /\ take o r q got q'.
Proof.
  intros Ho Hq. destruct o as [b| |pol|dst| |k|ops fin|]; try discriminate Ho.
  - destruct dst as [|x dst]; [exists (Ok (VRead 0 [])), [], q; split; [now eexists|constructor]|].
    destruct Hq as [Hq|Hq]; [|discriminate]. do 3 eexists. split; [now eexists|]. apply tk_read; [discriminate|exact Hq|reflexivity].
  - destruct Hq as [Hq|Hq]; [|discriminate]. do 3 eexists. split; [now eexists|]. now apply tk_fill.
  - do 3 eexists. split; [now eexists|]. apply tk_consume.
  - destruct Hq as [Hq|Hq]; [|discriminate].
    assert (G : exists got, q = got ++ handle_left ops fin q).
    { unfold handle_left. destruct fin; [destruct ops as [|o ops]; [exists q; now rewrite app_nil_r|apply handle_suffix]|now exists []]. }
    destruct G as (got & G). do 3 eexists. split; [now eexists|]. now apply (tk_handle ops fin q got).
Qed.

Lemma take_unique o r r' q got got' q1 q1' : receives o = true -> succeeds r -> succeeds r' -> take o r q got q1 -> take o r' q got' q1' ->
  r = r' /\ q1 = q1'.
Proof.
  intros Ho [v Hv] [v' Hv'] H H'. destruct H; inversion H'; subst; try contradiction; try congruence; auto;
  match goal with G : forall v, Ok _ <> Ok v |- _ => now destruct (G _ eq_refl) end.
Qed.

Lemma receive_unique C key iv room s o r r' s1 s1' : receives o = true ->
  receive C key iv room s o r s1 -> receive C key iv room s o r' s1' ->
  r = r' /\ ((forall x, r <> Panic x) -> s1 = s1').
Proof.
  intros Ho H H'.
  destruct H as [s o r got q' Hc Hs Ht|s o Hop Hw|n w o r d n' w' got q' Hw Hh Hs Ht|n w o e n' w' Hw Hh|n w o n' w' Hw Hh|n w o x n' w' s' Hw Hh];
  inversion H' as [s2 o2 r2 got2 q2 Hc2 Hs2 Ht2|s2 o2 Hop2 Hw2|n2 w2 o2 r2 d2 n2' w2' got2 q2' Hw2 Hh2 Hs2 Ht2|n2 w2 o2 e2 n2' w2' Hw2 Hh2|n2 w2 o2 n2' w2' Hw2 Hh2|n2 w2 o2 x2 n2' w2' s2' Hw2 Hh2]; subst; cbn [q_open q_data q_next q_wire] in *;
  try (destruct Hc as [[? ?]|?]; congruence); try (destruct Hc2 as [[? ?]|?]; congruence); try discriminate;
  try (pose proof (hears_unique _ _ _ _ _ _ _ _ _ Hh _ _ _ Hh2) as (Hv & <- & <-); try discriminate; try (injection Hv as <-)).
  - destruct (take_unique _ _ _ _ _ _ _ _ Ho Hs Hs2 Ht Ht2) as [-> ->]. split; [reflexivity|auto].
  - split; [reflexivity|auto].
  - destruct (take_unique _ _ _ _ _ _ _ _ Ho Hs Hs2 Ht Ht2) as [-> ->]. split; [reflexivity|auto].
  - split; [reflexivity|auto].
  - split; [reflexivity|auto].
  - split; [reflexivity|]. intros Hx. now destruct (Hx x).
Qed.

Lemma receive_total C key iv room s o : receives o = true -> exists r s', receive C key iv room s o r s'.
Proof.
  intros Ho. destruct (waits o) eqn:Hw.
  2:{ destruct (take_total o (q_data s) Ho (or_intror Hw)) as (r & got & q' & Hs & Ht). do 2 eexists. eapply rc_here; eauto. }
  destruct s as [op d n w]. destruct op; [|do 2 eexists; now apply rc_over].
  destruct d as [|x d].
  - destruct (hears_total C key iv room (S (length w)) n w ltac:(lia)) as (v & n' & w' & Hh & Hp). destruct v as [d| |e| |x].
    + assert (Hd : d <> []) by (destruct d; [discriminate Hp|discriminate]). destruct (take_total o d Ho (or_introl Hd)) as (r & got & q' & Hs & Ht).
      do 2 eexists. eapply rc_data; eauto.
    + discriminate.
    + do 2 eexists. eapply rc_error; eauto.
    + do 2 eexists. eapply rc_closed; eauto.
    + exists (Panic x), (mk_receiver true [] n w). eapply rc_panic; eauto.
  - destruct (take_total o (x :: d) Ho) as (r & got & q' & Hs & Ht); [left; discriminate|]. do 2 eexists.
    eapply rc_here; [left; split; [reflexivity|cbn; discriminate]|exact Hs|exact Ht].
Qed.

(** Two histories of the same calls from the same state. *)
Theorem listens_unique C key iv room s rs s1 : listens C key iv room s rs s1 ->
  forall rs' s1', listens C key iv room s rs' s1' -> map fst rs = map fst rs' ->
  same_answers rs rs' /\
  (Forall (fun a => forall x, snd a <> Panic x) rs -> s1 = s1').
Proof.
  induction 1 as [s|s o r s1 rs s2 Ho Hr Hp _ IH|s o r rs s2 Ho _ IH]; intros rs' s1' H' E.
  - destruct rs'; [|discriminate]. inversion H'. subst. split; [constructor|auto].
  - destruct rs' as [|[o' r'] rs']; [discriminate|]. cbn [map fst] in E. injection E as <- E.
    inversion H' as [|? ? ? s3 ? ? Ho' Hr' Hp' Hl'|? ? ? ? ? Ho' Hl']; subst; [|congruence].
    destruct (receive_unique _ _ _ _ _ _ _ _ _ _ Ho Hr Hr') as [A S].
    destruct r as [v|e|x| |].
    3:{ rewrite (Hp x eq_refl) in *. destruct rs'; [|discriminate]. split; [constructor; [split; [reflexivity|intros _; exact A]|constructor]|].
        intros Hall. inversion Hall as [|? ? Hx _]. now destruct (Hx x). }
    all: rewrite <- S in Hl' by discriminate; destruct (IH _ _ Hl' E) as [I1 I2]; (split; [constructor; [split; [reflexivity|intros _; exact A]|exact I1]|]);
      intros Hall; apply Forall_cons_iff in Hall as [_ Hall]; auto.
  - destruct rs' as [|[o' r'] rs']; [discriminate|]. cbn [map fst] in E. injection E as <- E.
    inversion H' as [|? ? ? s3 ? ? Ho' Hr' Hp' Hl'|? ? ? ? ? Ho' Hl']; subst; [congruence|].
    destruct (IH _ _ Hl' E) as [I1 I2]. split; [constructor; [split; [reflexivity|cbn [fst]; congruence]|exact I1]|].
    intros Hall. apply Forall_cons_iff in Hall as [_ Hall]. auto.
Qed.
