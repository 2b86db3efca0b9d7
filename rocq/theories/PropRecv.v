(** * C18, C32, C33, C35, C43: the fate of single records *)
From Coq Require Import String List NArith Arith Bool Lia ZArith.
From Coq.Strings Require Import Byte.
From Coq Require Import ZifyBool ZifyNat ZifyN.
From Verif Require Import Base ParseBuffer Buffer Codes Extensions Crypto KeySchedule Config Handshake Record WriteBuffer
  Transport RecordReader ReadBuffer Connection Api BaseProofs ParseProofs SpecWire SpecCodes SpecMessages SpecKeys SpecRecord SpecRead
  KeyProofs RecordProofs SpecSend SendProofs SpecSession HsProofs ConnProofs FrameProofs PropFrame DecryptProofs FlagProofs ReadProofs RecvProofs ServeProofs
  Toy ToyRun PropSession PropRead.
Import ListNotations.
Local Open Scope list_scope.

(** ** The next record *)

Lemma waiting_inv C L c : crypto_ok C -> waiting C L c -> crinv C (incoming c) c /\ ready (cn_rd c).
Proof.
  intros HC (H1 & H2 & H3 & H4 & H5). pose proof (in_use_boundary C L c HC H1 H4) as Hc. split; [exact Hc|].
  destruct Hc as (Hw & _). unfold rd_wf in Hw. split; [exact H4|]. split; [lia|exact H5].
Qed.

(** What a waiting call does with the next record. *)
Lemma waiting_record C L c o h f rest : crypto_ok C -> waiting C L c -> waits o = true ->
  incoming c = h ++ f ++ rest -> framed h f -> known_type h -> length f <= room c ->
  exists o1 e s' d' op', fate C (rkey c) (r_transcript (rd_ks (cn_rd c))) h f o1 e /\ effect_on (rkey c) (cn_dec c) true e s' d' op' /\
    ready s' /\ stream (rd_rx s') = rest /\ length (rd_buf s') = room c /\ rd_wf s' /\ tracked (incoming c) s' /\
    fill_loop C (S (rx_size (rd_rx (cn_rd c)))) (cn_rd c, (cn_dec c, true)) =
      match o1 with
      | Ok _ => fill_loop C (rx_size (rd_rx (cn_rd c))) (s', (d', op'))
      | _ => (o1, (s', (d', op')))
      end /\
    (o1 = Ok tt -> rx_size (rd_rx s') < rx_size (rd_rx (cn_rd c))) /\
    (forall x, o1 = Err x -> step C o c = (Err x, with_rd c s' d' op')) /\
    (forall x, o1 = Panic x -> fst (step C o c) = Panic x).
Proof.
  intros HC Hi Hw Hin Hfr Hkt Hroom. destruct (waiting_inv C L c HC Hi) as [Hc Hr]. destruct Hi as (_ & Hop & Hu & _).
  destruct (rad_frame C (incoming c) (cn_rd c) (cn_dec c) true h f rest HC Hc Hr Hin Hfr Hkt Hroom)
    as (o1 & s' & d' & op' & e & R1 & R2 & R3 & R4 & R5 & R6 & R7 & R8 & R9).
  pose proof (fill_empty C (incoming c) (rx_size (rd_rx (cn_rd c))) (cn_rd c) (cn_dec c) true Hc Hu) as Hf.
  unfold bind in Hf. rewrite R1 in Hf.
  exists o1, e, s', d', op'. repeat (split; [assumption|]).
  split; [rewrite Hf; now destruct o1 as [[]|x|x| |]|]. split; [exact R7|]. split.
  - intros x ->. exact (step_fill_err C c o x s' d' op' Hw Hop Hf).
  - intros x ->. destruct (step_waits C o c Hw) as (A & m & g & Hst). rewrite Hst.
    unfold bind at 1. unfold on_rh. rewrite Hop. unfold bind at 1. unfold rh_read_buffered, bind at 1, get at 1. cbn [fst snd].
    unfold bind at 1. rewrite Hf. reflexivity.
Qed.

(** Afterwards the connection is idle again, if the record left it open. *)
Lemma waiting_after C L c o x s' d' : crypto_ok C -> waiting C L c -> waits o = true ->
  step C o c = (Err x, with_rd c s' d' true) -> ready s' -> d' = cn_dec c -> waiting C L (with_rd c s' d' true).
Proof.
  intros HC Hi Hw Hst (R1 & R2 & R3) ->. destruct (waiting_inv C L c HC Hi) as [Hc _]. destruct Hi as (Hu & _ & Hun & _).
  split. { eapply in_use_step; [exact Hu| |exact Hst|exact I]. destruct o; discriminate || reflexivity. }
  split; [reflexivity|]. split; [|split; [exact R1|exact R3]].
  apply (unread_nil C (incoming c) (cn_rd c) (cn_dec c) Hc) in Hun. unfold unread, unread_of. cbn [with_rd cn_rd cn_dec].
  now rewrite Hun, Nat.sub_diag.
Qed.

Lemma data_type h : hd_error h = Some ty_data -> hdr_content_type h = Ok CT_ApplicationData.
Proof. destruct h as [|t h]; [discriminate|]. cbn. intros E. inversion E. reflexivity. Qed.

Lemma data_known h : hd_error h = Some ty_data -> length h = 5 -> known_type h.
Proof. destruct h as [|t h]; [discriminate|]. cbn [hd_error]. intros E _. inversion E. reflexivity. Qed.

(** The inner plaintext of an authentic record. *)
Lemma waiting_inner C L c o h f rest inner : crypto_ok C -> waiting C L c -> waits o = true ->
  incoming c = h ++ f ++ rest -> framed h f -> hd_error h = Some ty_data -> length f <= room c ->
  rfc_open C (read_key c) (read_iv c) (next_seq c) h f = Some inner ->
  exists o1 e s' d' op', inner_fate C (rkey c) (r_transcript (rd_ks (cn_rd c))) inner o1 e /\ effect_on (rkey c) (cn_dec c) true e s' d' op' /\
    ready s' /\ stream (rd_rx s') = rest /\ length (rd_buf s') = room c /\ rd_wf s' /\ tracked (incoming c) s' /\
    fill_loop C (S (rx_size (rd_rx (cn_rd c)))) (cn_rd c, (cn_dec c, true)) =
      match o1 with
      | Ok _ => fill_loop C (rx_size (rd_rx (cn_rd c))) (s', (d', op'))
      | _ => (o1, (s', (d', op')))
      end /\
    (o1 = Ok tt -> rx_size (rd_rx s') < rx_size (rd_rx (cn_rd c))) /\
    (forall x, o1 = Err x -> step C o c = (Err x, with_rd c s' d' op')) /\
    (forall x, o1 = Panic x -> fst (step C o c) = Panic x).
Proof.
  intros HC Hi Hw Hin Hfr Hty Hroom Hopen.
  destruct (waiting_record C L c o h f rest HC Hi Hw Hin Hfr (data_known h Hty (proj1 Hfr)) Hroom) as (o1 & e & s' & d' & op' & Hf & Hrest).
  exists o1, e, s', d', op'. split; [|exact Hrest]. pose proof (data_type h Hty) as Ht.
  unfold read_key, read_iv, next_seq in Hopen. fold (rkey c) in Hopen.
  inversion Hf; subst; congruence.
Qed.

Lemma sealed_parts C key iv n inner : crypto_ok C -> exists f, sealed_record C key iv n inner = rfc_header (length inner + 16) ++ f /\
  length f = length inner + 16 /\ rfc_open C key iv n (rfc_header (length inner + 16)) f = Some inner.
Proof.
  intros HC. unfold sealed_record, rfc_open. rewrite (ok_tag_len C HC).
  set (h := rfc_header (length inner + 16)). set (nonce := rfc_nonce iv n).
  destruct (c_seal C key nonce h inner) as [ct tag] eqn:E. exists (ct ++ tag).
  pose proof (ok_seal_len C HC key nonce h inner) as [E1 E2]. rewrite E, (ok_tag_len C HC) in E2. rewrite E in E1. cbn [fst snd] in E1, E2.
  split; [reflexivity|]. rewrite app_length. split; [lia|].
  destruct (Nat.ltb_spec (length ct + length tag) 16); [lia|].
  replace (length ct + length tag - 16) with (length ct) by lia. rewrite firstn_app_exact, skipn_app_exact by reflexivity.
  pose proof (ok_open_seal C HC key nonce h inner) as X. rewrite E in X. exact X.
Qed.

Lemma sealed_waiting C L c o inner rest : crypto_ok C -> waiting C L c -> waits o = true ->
  incoming c = sealed_record C (read_key c) (read_iv c) (next_seq c) inner ++ rest ->
  length inner + tag_len C <= room c -> (N.of_nat (length inner + tag_len C) < 65536)%N ->
  exists o1 e s' d' op', inner_fate C (rkey c) (r_transcript (rd_ks (cn_rd c))) inner o1 e /\ effect_on (rkey c) (cn_dec c) true e s' d' op' /\
    ready s' /\ stream (rd_rx s') = rest /\ length (rd_buf s') = room c /\ rd_wf s' /\ tracked (incoming c) s' /\
    fill_loop C (S (rx_size (rd_rx (cn_rd c)))) (cn_rd c, (cn_dec c, true)) =
      match o1 with
      | Ok _ => fill_loop C (rx_size (rd_rx (cn_rd c))) (s', (d', op'))
      | _ => (o1, (s', (d', op')))
      end /\
    (o1 = Ok tt -> rx_size (rd_rx s') < rx_size (rd_rx (cn_rd c))) /\
    (forall x, o1 = Err x -> step C o c = (Err x, with_rd c s' d' op')) /\
    (forall x, o1 = Panic x -> fst (step C o c) = Panic x).
Proof.
  intros HC Hi Hw Hin Hroom Hsz. rewrite (ok_tag_len C HC) in *.
  destruct (sealed_parts C (read_key c) (read_iv c) (next_seq c) inner HC) as (f & E & Hf & Ho).
  rewrite E, <- app_assoc in Hin.
  exact (waiting_inner C L c o _ f rest inner HC Hi Hw Hin (rfc_header_framed _ f Hf Hsz) eq_refl ltac:(lia) Ho).
Qed.

(** ** C18 *)

(** A type byte that is not one of TLS. *)
Definition unknown_type (t : byte) : Prop := ~ In (Byte.to_N t) [0; 20; 21; 22; 23]%N.

Lemma unknown_type_none t : unknown_type t -> content_type_of (Byte.to_N t) = None.
Proof. unfold unknown_type. destruct t; cbn; intros H; try reflexivity; exfalso; apply H; tauto. Qed.

Lemma sealed_is_record C key iv n t ct pad : sealed_record C key iv n (rfc_inner t ct pad) = rfc_record C key iv n t ct pad.
Proof. reflexivity. Qed.


Lemma parse_alert_two a b r : fst (parse_alert (pb_new (a :: b :: r))) =
  (l' <-- ok_or DecodeError (alert_level_of (Byte.to_N a)) ;; d' <-- ok_or DecodeError (alert_desc_of (Byte.to_N b)) ;; Ok (l', d')).
Proof. unfold parse_alert. cbn. destruct (alert_level_of (Byte.to_N a)); [|reflexivity]. cbn. destruct (alert_desc_of (Byte.to_N b)); reflexivity. Qed.

Lemma parse_alert_close ct : is_close_notify ct -> exists l, fst (parse_alert (pb_new ct)) = Ok (l, AD_CloseNotify).
Proof. intros (lvl & r & -> & Hl). rewrite parse_alert_two. destruct Hl as [-> | ->]; cbn; eauto. Qed.

Lemma parse_alert_short ct : length ct < 2 -> fst (parse_alert (pb_new ct)) = Err (ParseErr PE_InsufficientBytes).
Proof. destruct ct as [|a [|b r]]; [reflexivity|reflexivity|cbn; lia]. Qed.

(** Two bytes of an alert that are a level and a description of TLS. *)
Definition some_alert (lvl d : byte) : Prop :=
  In (Byte.to_N lvl) [1; 2]%N /\
  In (Byte.to_N d) [0; 10; 20; 22; 40; 42; 43; 44; 45; 46; 47; 48; 49; 50; 51; 70; 71; 80; 86; 90; 109; 110; 112; 113; 115; 116; 120]%N.

Lemma some_alert_parse lvl d r : some_alert lvl d -> d <> x00 -> exists l ds, fst (parse_alert (pb_new (lvl :: d :: r))) = Ok (l, ds) /\ ds <> AD_CloseNotify.
Proof.
  intros [Hl Hd] H0. rewrite parse_alert_two.
  assert (El : exists l, alert_level_of (Byte.to_N lvl) = Some l) by (destruct Hl as [<-|[<-|[]]]; cbn; eauto).
  destruct El as [l ->].
  assert (Ed : exists ds, alert_desc_of (Byte.to_N d) = Some ds /\ ds <> AD_CloseNotify).
  { destruct (N.eq_dec (Byte.to_N d) 0) as [E|E]; [exfalso; apply H0; destruct d; discriminate || reflexivity|].
    cbn [In] in Hd. repeat (destruct Hd as [Hd|Hd]; [rewrite <- Hd in *; cbn; try (eexists; split; [reflexivity|discriminate]); lia|]). contradiction. }
  destruct Ed as (ds & -> & Hds). cbn. eauto.
Qed.

Lemma other_alert_parse a b r : ~ some_alert a b -> fst (parse_alert (pb_new (a :: b :: r))) = Err DecodeError.
Proof.
  intros Hn. rewrite parse_alert_two. destruct (alert_level_of (Byte.to_N a)) as [l|] eqn:El; [|reflexivity].
  destruct (alert_desc_of (Byte.to_N b)) as [ds|] eqn:Ed; [|reflexivity]. exfalso. apply Hn. split.
  - clear Ed. destruct a; cbn in El; try discriminate; cbn; tauto.
  - clear El. destruct b; cbn in Ed; try discriminate; cbn; tauto.
Qed.

(** What the content of a protected record of type [t] leads to, for types whose records are
    not absorbed. *)
Inductive reported : byte -> bytes -> tls_error -> Prop :=
| rp_close ct : is_close_notify ct -> reported ty_alert ct ConnectionClosed
| rp_alert lvl d r : some_alert lvl d -> d <> x00 -> reported ty_alert (lvl :: d :: r) InternalError
| rp_not_alert a b r : ~ some_alert a b -> reported ty_alert (a :: b :: r) DecodeError
| rp_short ct : length ct < 2 -> reported ty_alert ct (ParseErr PE_InsufficientBytes)
| rp_ccs ct : reported ty_ccs ct Unimplemented
| rp_unknown t ct : unknown_type t -> reported t ct InvalidRecord.

Lemma inner_reported C k tr inner t ct x o e : inner_fate C k tr inner o e -> (k_counter k < u64_max)%N ->
  rfc_unpad inner = Some (t, ct) -> reported t ct x -> o = Err x /\ e = (if match x with ConnectionClosed => true | _ => false end then Shut else Kept).
Proof.
  intros Hf Hm Hu Hr.
  assert (Hct : content_type_of (Byte.to_N t) = Some CT_Alert /\
      ((exists l, fst (parse_alert (pb_new ct)) = Ok (l, AD_CloseNotify)) /\ x = ConnectionClosed \/
       (exists l ds, fst (parse_alert (pb_new ct)) = Ok (l, ds) /\ ds <> AD_CloseNotify) /\ x = InternalError \/
       fst (parse_alert (pb_new ct)) = Err x /\ (x = DecodeError \/ x = ParseErr PE_InsufficientBytes)) \/
    content_type_of (Byte.to_N t) = Some CT_ChangeCipherSpec /\ x = Unimplemented \/
    content_type_of (Byte.to_N t) = None /\ x = InvalidRecord).
  { destruct Hr as [ct H|lvl d r H H0|a b r H|ct H|ct|t ct H].
    - left. split; [reflexivity|]. left. split; [now apply parse_alert_close|reflexivity].
    - left. split; [reflexivity|]. right; left. split; [now apply some_alert_parse|reflexivity].
    - left. split; [reflexivity|]. right; right. split; [now apply other_alert_parse|auto].
    - left. split; [reflexivity|]. right; right. split; [now apply parse_alert_short|auto].
    - right; left. auto.
    - right; right. split; [now apply unknown_type_none|reflexivity]. }
  inversion Hf; subst; try (exfalso; congruence || lia || discriminate Hu);
    match goal with H : rfc_unpad _ = Some (?t0, ?c0) |- _ => rewrite Hu in H; inversion H; subst t0 c0 end.
  - destruct Hct as [(E & _)|[(E & _)|(_ & ->)]]; try congruence; auto.
  - destruct Hct as [(E & _)|[(_ & ->)|(E & _)]]; try congruence; auto. rewrite H0 in E. inversion E. subst. destruct H1; discriminate.
  - exfalso. destruct Hct as [(E & _)|[(E & _)|(E & _)]]; congruence.
  - exfalso. destruct Hct as [(E & _)|[(E & _)|(E & _)]]; congruence.
  - exfalso. destruct Hct as [(E & _)|[(E & _)|(E & _)]]; congruence.
  - exfalso. destruct Hct as [(E & _)|[(E & _)|(E & _)]]; congruence.
  - destruct Hct as [(_ & [((l0 & E) & _)|[((l0 & ds & E & _) & _)|(E & Ex)]])|[(E & _)|(E & _)]]; try congruence.
    rewrite H1 in E. inversion E. destruct Ex as [-> | ->]; auto.
  - destruct Hct as [(_ & [((l0 & E) & _)|[((l0 & ds & E & _) & ->)|(E & _)]])|[(E & _)|(E & _)]]; try congruence. auto.
  - destruct Hct as [(_ & [((l0 & E) & ->)|[((l0 & ds & E & E2) & ->)|(E & _)]])|[(E & _)|(E & _)]]; try congruence. auto.
Qed.

(** [c'] waits for the next record like [c] did: only the transport has moved on to [rest]. *)
Definition unchanged (C : crypto) (L : nat) (c c' : conn) (rest : bytes) : Prop :=
  waiting C L c' /\ incoming c' = rest /\ room c' = room c /\ next_seq c' = next_seq c /\
  read_key c' = read_key c /\ read_iv c' = read_iv c /\ cn_wh c' = cn_wh c.

Lemma kept_unchanged C L c o x s' d' op' rest : crypto_ok C -> waiting C L c -> waits o = true ->
  step C o c = (Err x, with_rd c s' d' op') -> effect_on (rkey c) (cn_dec c) true Kept s' d' op' -> ready s' -> stream (rd_rx s') = rest ->
  length (rd_buf s') = room c -> unchanged C L c (with_rd c s' d' op') rest.
Proof.
  intros HC Hi Hw Hst (E1 & -> & ->) Hr Hs Hl. split; [exact (waiting_after C L c o x s' _ HC Hi Hw Hst Hr eq_refl)|].
  unfold incoming, room, next_seq, read_key, read_iv in *. cbn [with_rd cn_rd cn_wh]. rewrite E1. auto 8.
Qed.

Lemma fill_nonempty_call C W c : crypto_ok C -> crinv C W c -> cn_opened c = true -> unread c <> [] -> fst (step C OpFillBuf c) = Ok (VBytes (unread c)).
Proof.
  intros HC Hc Ho Hu. destruct (step C OpFillBuf c) as [r c'] eqn:E.
  destruct (recv_step C W c OpFillBuf r c' HC Hc eq_refl E) as (_ & _ & Hres).
  assert (G : exists g, (exists v, r = Ok v) /\ take OpFillBuf r (unread c) g (unread c')).
  { destruct r as [v|e|x| |]; try contradiction.
    3: destruct Hres as [Hres _]; congruence.
    all: destruct Hres as (l & g & _ & _ & _ & _ & R5 & R6 & _); destruct (R5 Hu) as (-> & _ & Hv); rewrite app_nil_r in R6; eauto. }
  destruct G as (g & (v & ->) & T). cbn [fst]. inversion T; subst; [reflexivity|exfalso|discriminate].
  match goal with H : forall v, _ |- _ => now apply (H v) end.
Qed.

(** Whatever the amount of padding, the content of an application data record is delivered
    exactly, and everything else gets the answer that its type and content call for; the
    type and the content are those that were sealed.  (Records of handshake messages: C14, C35.) *)
Theorem C18_exact : forall C L c o t ct pad rest, crypto_ok C -> waiting C L c -> waits o = true -> t <> x00 ->
  incoming c = rfc_record C (read_key c) (read_iv c) (next_seq c) t ct pad ++ rest ->
  length ct + 1 + pad + tag_len C <= room c -> (N.of_nat (length ct + 1 + pad + tag_len C) < 65536)%N -> (next_seq c < u64_max)%N ->
  (t = ty_data -> ct <> [] -> fst (step C OpFillBuf c) = Ok (VBytes ct)) /\
  (forall x, reported t ct x -> fst (step C o c) = Err x).
Proof.
  intros C L c o t ct pad rest HC Hi Hw Ht Hin Hroom Hsz Hmax.
  rewrite <- sealed_is_record in Hin. rewrite <- (rfc_inner_length t ct pad) in Hroom, Hsz.
  assert (Hunp : rfc_unpad (rfc_inner t ct pad) = Some (t, ct)) by now apply unpad_inner.
  assert (Hmax' : (k_counter (rkey c) < u64_max)%N) by exact Hmax.
  split.
  - intros -> Hne.
    destruct (sealed_waiting C L c OpFillBuf _ rest HC Hi eq_refl Hin Hroom Hsz) as (o1 & e & s' & d' & op' & Hf & He & Hr & Hs & Hl & Hwf & Htr & Hfl & _).
    destruct (waiting_inv C L c HC Hi) as [Hc _]. destruct Hi as (_ & Ho & _).
    assert (G : o1 = Ok tt /\ e = Window ct).
    { clear Hin Hroom Hsz. remember (rfc_inner ty_data ct pad) as inner eqn:Ei. clear Ei.
      inversion Hf; subst; try (exfalso; congruence || lia || discriminate Hunp);
        match goal with H : rfc_unpad _ = Some (?t0, ?c0) |- _ => rewrite Hunp in H; inversion H; subst t0 c0 end; auto; exfalso; try discriminate.
      match goal with H : content_type_of _ = Some _ |- _ => cbn in H; inversion H; subst end. intuition discriminate. }
    destruct G as [-> ->]. destruct He as (E1 & -> & E3 & E4 & E5 & E6).
    assert (Hri : rinv C (incoming c) s' d').
    { destruct Hc as (_ & Hiv & _). split; [exact Hwf|]. split; [rewrite E1; exact Hiv|]. split; [exact E5|exact Htr]. }
    rewrite (step_filled C (incoming c) c OpFillBuf s' d' _ eq_refl Ho Hfl Hri) by (rewrite E6; exact Hne).
    rewrite <- E6. apply (fill_nonempty_call C (incoming c) (with_rd c s' d' true) HC Hri eq_refl). unfold unread. cbn [with_rd cn_rd cn_dec]. rewrite E6. exact Hne.
  - intros x Hrep.
    destruct (sealed_waiting C L c o _ rest HC Hi Hw Hin Hroom Hsz) as (o1 & e & s' & d' & op' & Hf & _ & _ & _ & _ & _ & _ & _ & _ & Herr & _).
    destruct (inner_reported C _ _ _ t ct x o1 e Hf Hmax' Hunp Hrep) as [-> _]. now rewrite (Herr x eq_refl).
Qed.

(** An inner plaintext of zeros is refused with an error. *)
Theorem C18_zeros : forall C L c o pad rest, crypto_ok C -> waiting C L c -> waits o = true ->
  incoming c = sealed_record C (read_key c) (read_iv c) (next_seq c) (repeat x00 (S pad)) ++ rest ->
  S pad + tag_len C <= room c -> (N.of_nat (S pad + tag_len C) < 65536)%N -> (next_seq c < u64_max)%N ->
  exists c', step C o c = (Err Unimplemented, c') /\ unchanged C L c c' rest.
Proof.
  intros C L c o pad rest HC Hi Hw Hin Hroom Hsz Hmax.
  assert (El : length (repeat x00 (S pad)) = S pad) by apply repeat_length. rewrite <- El in Hroom, Hsz.
  assert (Hz : rfc_unpad (repeat x00 (S pad)) = None).
  { apply unpad_none_zeros. }
  destruct (sealed_waiting C L c o _ rest HC Hi Hw Hin Hroom Hsz) as (o1 & e & s' & d' & op' & Hf & He & Hr & Hs & Hl & _ & _ & _ & _ & Herr & _).
  assert (G : o1 = Err Unimplemented /\ e = Kept).
  { assert (Hmax' : (k_counter (rkey c) < u64_max)%N) by exact Hmax. inversion Hf; subst; try (exfalso; congruence || lia); try discriminate. auto. }
  destruct G as [-> ->]. exists (with_rd c s' d' op'). specialize (Herr _ eq_refl). split; [exact Herr|].
  exact (kept_unchanged C L c o _ s' d' op' rest HC Hi Hw Herr He Hr Hs Hl).
Qed.

(** An authentic record with nothing inside (it has no type byte either) is not rejected:
    the client panics. *)
Theorem C18_refuted : forall C L c o rest, crypto_ok C -> waiting C L c -> waits o = true ->
  incoming c = sealed_record C (read_key c) (read_iv c) (next_seq c) [] ++ rest ->
  tag_len C <= room c -> fst (step C o c) = Panic PUnwrap.
Proof.
  intros C L c o rest HC Hi Hw Hin Hroom.
  assert (Hsz : (N.of_nat (length (@nil byte) + tag_len C) < 65536)%N) by (cbn [length]; rewrite (ok_tag_len C HC); lia).
  destruct (sealed_waiting C L c o [] rest HC Hi Hw Hin Hroom Hsz) as (o1 & e & s' & d' & op' & Hf & _ & _ & _ & _ & _ & _ & _ & _ & _ & Hp).
  assert (G : o1 = Panic PUnwrap) by (inversion Hf; subst; try reflexivity; try congruence; discriminate).
  exact (Hp _ G).
Qed.

(** ** C32 *)

(** A record that does not open is reported and changes nothing else: the session is open,
    keys, counter, buffer and writer are as before, and the next record on the transport is
    treated as if the forged one had never been there. *)
Theorem C32_forged : forall C L c o h f rest, crypto_ok C -> waiting C L c -> waits o = true ->
  incoming c = h ++ f ++ rest -> framed h f -> hd_error h = Some ty_data -> length f <= room c ->
  rfc_open C (read_key c) (read_iv c) (next_seq c) h f = None ->
  exists c', step C o c = (Err CryptoError, c') /\ unchanged C L c c' rest.
Proof.
  intros C L c o h f rest HC Hi Hw Hin Hfr Hty Hroom Hop.
  destruct (waiting_record C L c o h f rest HC Hi Hw Hin Hfr (data_known h Hty (proj1 Hfr)) Hroom)
    as (o1 & e & s' & d' & op' & Hf & He & Hr & Hs & Hl & _ & _ & _ & _ & Herr & _).
  pose proof (data_type h Hty) as Ht. unfold read_key, read_iv, next_seq in Hop. fold (rkey c) in Hop.
  assert (G : o1 = Err CryptoError /\ e = Kept) by (inversion Hf; subst; try (exfalso; congruence); auto).
  destruct G as [-> ->]. exists (with_rd c s' d' op'). specialize (Herr _ eq_refl). split; [exact Herr|].
  exact (kept_unchanged C L c o _ s' d' op' rest HC Hi Hw Herr He Hr Hs Hl).
Qed.

(** Any number of forged records, then a genuine one: each call reports one forgery, and the
    call after that delivers the data of the genuine record. *)
Fixpoint forged_wire (l : list (bytes * bytes)) : bytes :=
  match l with [] => [] | (h, f) :: l => h ++ f ++ forged_wire l end.

Theorem C32_next : forall C L forged c ct pad rest, crypto_ok C -> waiting C L c ->
  incoming c = forged_wire forged ++ rfc_record C (read_key c) (read_iv c) (next_seq c) ty_data ct pad ++ rest ->
  Forall (fun '(h, f) => framed h f /\ hd_error h = Some ty_data /\ length f <= room c /\
     rfc_open C (read_key c) (read_iv c) (next_seq c) h f = None) forged ->
  ct <> [] -> length ct + 1 + pad + tag_len C <= room c -> (N.of_nat (length ct + 1 + pad + tag_len C) < 65536)%N -> (next_seq c < u64_max)%N ->
  map snd (fst (run C (repeat OpFillBuf (length forged) ++ [OpFillBuf]) c)) =
    repeat (Err CryptoError) (length forged) ++ [Ok (VBytes ct)].
Proof.
  intros C L forged. induction forged as [|[h f] forged IH]; intros c ct pad rest HC Hi Hin Hall Hct Hroom Hsz Hmax.
  - cbn [forged_wire app length repeat] in *. pose proof Hin as Hin'.
    destruct (C18_exact C L c OpFillBuf ty_data ct pad rest HC Hi eq_refl ltac:(discriminate) Hin Hroom Hsz Hmax) as [H _].
    specialize (H eq_refl Hct). destruct (step C OpFillBuf c) as [r c'] eqn:E. cbn [fst] in H. subst r.
    cbn [run]. rewrite E. reflexivity.
  - apply Forall_cons_iff in Hall as [(H1 & H2 & H3 & H4) Hall]. cbn [forged_wire] in Hin. rewrite <- !app_assoc in Hin.
    destruct (C32_forged C L c OpFillBuf h f _ HC Hi eq_refl Hin H1 H2 H3 H4) as (c' & E & U1 & U2 & U3 & U4 & U5 & U6 & _).
    cbn [length repeat app]. pose proof (run_cons' C OpFillBuf (repeat OpFillBuf (length forged) ++ [OpFillBuf]) c _ c' E) as Er.
    cbn [stops] in Er. rewrite Er. cbn [fst map snd]. f_equal. apply (IH c' ct pad rest); try assumption; rewrite ?U3, ?U4, ?U5, ?U6; assumption.
Qed.

(** ** C33 *)

(** Calls of [write] and [flush]. *)
Definition sends_data (o : op) : bool := match o with OpWrite _ | OpFlush => true | _ => false end.

Lemma sends_same C o c c' : sends_data o = true -> cn_opened c = true -> cn_opened c' = true -> cn_wh c' = cn_wh c ->
  fst (step C o c') = fst (step C o c) /\ cn_wh (snd (step C o c')) = cn_wh (snd (step C o c)).
Proof.
  intros Ho E1 E2 E3. destruct o as [buf| | | | | | |]; try discriminate; cbn [step]; unfold cn_write, cn_flush, bind, get, on_wh, ret; rewrite ?E1, ?E2, E3.
  - destruct (wh_write C true buf (cn_wh c)) as [[]]; auto.
  - destruct (wh_flush C (cn_wh c)) as [[]]; auto.
Qed.

(** An authentic alert is reported to the call that reads it. *)
Theorem C33_reported_partial : forall C L c o lvl d more pad rest, crypto_ok C -> waiting C L c -> waits o = true ->
  some_alert lvl d -> d <> x00 ->
  incoming c = rfc_record C (read_key c) (read_iv c) (next_seq c) ty_alert (lvl :: d :: more) pad ++ rest ->
  length (lvl :: d :: more) + 1 + pad + tag_len C <= room c -> (N.of_nat (length (lvl :: d :: more) + 1 + pad + tag_len C) < 65536)%N ->
  (next_seq c < u64_max)%N ->
  fst (step C o c) = Err InternalError.
Proof.
  intros C L c o lvl d more pad rest HC Hi Hw Ha Hd Hin Hr Hs Hm.
  apply (proj2 (C18_exact C L c o ty_alert _ pad rest HC Hi Hw ltac:(discriminate) Hin Hr Hs Hm)). now constructor.
Qed.

(** But the session goes on: after the alert, sending works as if it had not come, and reading
    waits for another record with the number of the alert. *)
Theorem C33_refuted : forall C L c o lvl d more pad rest, crypto_ok C -> waiting C L c -> waits o = true ->
  some_alert lvl d -> d <> x00 ->
  incoming c = rfc_record C (read_key c) (read_iv c) (next_seq c) ty_alert (lvl :: d :: more) pad ++ rest ->
  length (lvl :: d :: more) + 1 + pad + tag_len C <= room c -> (N.of_nat (length (lvl :: d :: more) + 1 + pad + tag_len C) < 65536)%N ->
  (next_seq c < u64_max)%N ->
  exists c', step C o c = (Err InternalError, c') /\ unchanged C L c c' rest /\
    forall o', sends_data o' = true -> fst (step C o' c') = fst (step C o' c) /\ cn_wh (snd (step C o' c')) = cn_wh (snd (step C o' c)).
Proof.
  intros C L c o lvl d more pad rest HC Hi Hw Ha Hd Hin Hroom Hsz Hmax.
  rewrite <- sealed_is_record in Hin. rewrite <- (rfc_inner_length ty_alert (lvl :: d :: more) pad) in Hroom, Hsz.
  destruct (sealed_waiting C L c o _ rest HC Hi Hw Hin Hroom Hsz) as (o1 & e & s' & d' & op' & Hf & He & Hr & Hs & Hl & _ & _ & _ & _ & Herr & _).
  destruct (inner_reported C _ _ _ ty_alert (lvl :: d :: more) InternalError o1 e Hf Hmax (unpad_inner ty_alert (lvl :: d :: more) pad ltac:(discriminate)) (rp_alert _ _ _ Ha Hd)) as [-> ->].
  specialize (Herr _ eq_refl). exists (with_rd c s' d' op'). split; [exact Herr|].
  pose proof (kept_unchanged C L c o _ s' d' op' rest HC Hi Hw Herr He Hr Hs Hl) as Hu. split; [exact Hu|].
  intros o' Ho'. apply sends_same; [exact Ho'|apply Hi|apply Hu|reflexivity].
Qed.

(** ** C35 *)

(** A CertificateRequest after the handshake (RFC 8446 section 4.6.2): the client panics,
    although the record is authentic. *)
Definition a_request : bytes := [x0d; x00; x00; x03; x00; x00; x00].

Theorem C35_refuted : forall C L c o pad rest, crypto_ok C -> waiting C L c -> waits o = true ->
  incoming c = rfc_record C (read_key c) (read_iv c) (next_seq c) ty_handshake a_request pad ++ rest ->
  length a_request + 1 + pad + tag_len C <= room c -> (N.of_nat (length a_request + 1 + pad + tag_len C) < 65536)%N ->
  (next_seq c < u64_max)%N ->
  fst (step C o c) = Panic PUnimplemented.
Proof.
  intros C L c o pad rest HC Hi Hw Hin Hroom Hsz Hmax.
  rewrite <- sealed_is_record in Hin. rewrite <- (rfc_inner_length ty_handshake a_request pad) in Hroom, Hsz.
  destruct (sealed_waiting C L c o _ rest HC Hi Hw Hin Hroom Hsz) as (o1 & e & s' & d' & op' & Hf & _ & _ & _ & _ & _ & _ & _ & _ & _ & Hp).
  apply Hp. pose proof (unpad_inner ty_handshake a_request pad ltac:(discriminate)) as Hunp.
  assert (Hmax' : (k_counter (rkey c) < u64_max)%N) by exact Hmax.
  assert (Hh : forall tr, hs_pass C (S (length a_request)) tr (pb_new a_request) = Panic PUnimplemented) by (intros; vm_compute; reflexivity).
  clear Hin Hroom Hsz. remember (rfc_inner ty_handshake a_request pad) as inner eqn:Ei. clear Ei.
  inversion Hf; subst; try (exfalso; congruence || lia || discriminate Hunp);
    match goal with H : rfc_unpad _ = Some (?t0, ?c0) |- _ => rewrite Hunp in H; inversion H; subst t0 c0 end; try discriminate; try reflexivity;
    try (rewrite Hh in *; discriminate).
  match goal with H : content_type_of _ = Some _ |- _ => cbn in H; inversion H; subst end. intuition discriminate.
Qed.

(** The records that can crash the client: [crashes] in SpecRead.v (exactly which do: C35_exactly).  Any
    panic of a receiving call is due to one of them, whatever the server (or the network)
    sends, except that after an interrupted read - see C17 - slices may be out of bounds. *)
Theorem C35_causes_partial : forall C L c o x, crypto_ok C -> in_use C L c -> at_boundary c -> receives o = true ->
  fst (step C o c) = Panic x ->
  unread c = [] /\ exists l h f, opens C (incoming c) (read_key c) (read_iv c) (next_seq c) l /\ framed h f /\ received_in (incoming c) h f /\
    crashes C (read_key c) (read_iv c) (next_seq c + N.of_nat (length l)) h f x.
Proof.
  intros C L c o x HC Hu Hb Ho Hst. destruct (step C o c) as [r c'] eqn:E. cbn [fst] in Hst. subst r.
  destruct (recv_step C _ c o _ c' HC (in_use_boundary C L c HC Hu Hb) Ho E) as (_ & _ & Hn & l & Hl & [[_ Hp]|(h & f & Hfr & Hre & Hcr)]).
  - contradiction.
  - split; [exact Hn|]. exists l, h, f. auto.
Qed.

(** NewSessionTicket messages are absorbed: C14_in_order. *)

(** ** C43 *)

(** In every state of a history: the window of unread data lies in the record buffer; the
    debug assertions do not fire; while there is unread data no receiving call touches the
    record buffer, the transport or the keys, and the call succeeds. *)
Theorem C43_window : forall C L c, crypto_ok C -> in_use C L c ->
  (d_consumed (cn_dec c) <= d_len (cn_dec c) /\ d_offset (cn_dec c) + d_len (cn_dec c) <= room c) /\
  (forall o, receives o = true -> fst (step C o c) <> Panic PAssert) /\
  (forall o, receives o = true -> unread c <> [] -> cn_opened c = true ->
     (exists v, fst (step C o c) = Ok v) /\ cn_rd (snd (step C o c)) = cn_rd c /\
     exists got, take o (fst (step C o c)) (unread c) got (unread (snd (step C o c)))).
Proof.
  intros C L c HC Hu. destruct (in_use_recv C L c HC Hu) as (W & Hc). split; [apply Hc|]. split.
  - intros o Ho Hp. destruct (step C o c) as [r c'] eqn:E. cbn [fst] in Hp. subst r.
    destruct (recv_step C W c o _ c' HC Hc Ho E) as (_ & _ & _ & l & _ & [[[|] _]|(h & f & _ & _ & Hcr)]); try discriminate.
    destruct Hcr as [(_ & _ & Hx)|(inner & _ & [(_ & Hx)|[(_ & Hx)|(_ & Hx)]])]; discriminate.
  - intros o Ho Hn Hop. destruct (step C o c) as [r c'] eqn:E. cbn [fst snd].
    destruct (recv_step C W c o r c' HC Hc Ho E) as (_ & _ & Hres).
    destruct r as [v|e|x| |]; try contradiction.
    3: destruct Hres as [Hres _]; congruence.
    all: destruct Hres as (l & g & _ & _ & _ & _ & R5 & R6 & _); destruct (R5 Hn) as (-> & E2 & Hv); rewrite app_nil_r in R6; eauto.
Qed.

(** The window is where the data is: what [fill_buf] shows is the content of a record that
    opened, see C18_exact; the first call after it sees exactly the rest, see C22_handle. *)

(** ** The hypotheses are met *)

(** The toy server's records of this file. *)
Definition forged_one : bytes := Eval vm_compute in rfc_header 20 ++ repeat x00 20.
Definition waiting_in (w : bytes) : conn := conn_in w.

Lemma conn_in_waiting w : waiting toy 300 (conn_in w).
Proof.
  split; [apply established_in_use, conn_in_established|]. split; [reflexivity|]. split; [reflexivity|]. split; [reflexivity|]. apply trickle_chunked.
Qed.

(** C18, C33: a record of each kind, with padding. *)
Example C18_case : 
  let w t ct := toy_data 0 t ct 7 in
  (forall t ct, In (t, ct) [(ty_data, [x68; x69]); (ty_alert, [x02; x28]); (ty_alert, [x01]); (ty_ccs, []); (x63, [x00])] ->
     let c := conn_in (w t ct) in
     waiting toy 300 c /\ incoming c = rfc_record toy (read_key c) (read_iv c) (next_seq c) t ct 7 ++ [] /\ room c = 400) /\
  fst (step toy OpFillBuf (conn_in (w ty_data [x68; x69]))) = Ok (VBytes [x68; x69]) /\
  reported ty_alert [x02; x28] InternalError /\ reported ty_alert [x01] (ParseErr PE_InsufficientBytes) /\
  reported ty_ccs [] Unimplemented /\ reported x63 [x00] InvalidRecord.
Proof.
  cbv zeta. split.
  { intros t ct H. cbn [In] in H.
    repeat (destruct H as [H|H]; [apply pair_equal_spec in H as [<- <-]; split; [apply conn_in_waiting|]; split; vm_compute; reflexivity|]).
    contradiction. }
  split; [vm_compute; reflexivity|]. split; [constructor; [split; cbn; tauto|discriminate]|]. split; [constructor; cbn; lia|].
  split; [constructor|]. apply rp_unknown. cbn. intros H. repeat (destruct H as [H|H]; [discriminate|]). exact H.
Qed.

Example C18_zeros_case : let c := conn_in (sealed_record toy (read_key (conn_in [])) (read_iv (conn_in [])) 0 (repeat x00 3)) in
  waiting toy 300 c /\ incoming c = sealed_record toy (read_key c) (read_iv c) (next_seq c) (repeat x00 3) ++ [] /\
  fst (step toy OpFillBuf c) = Err Unimplemented.
Proof. cbv zeta. split; [apply conn_in_waiting|]. split; vm_compute; reflexivity. Qed.

Example C18_refuted_case : let c := conn_in (sealed_record toy (read_key (conn_in [])) (read_iv (conn_in [])) 0 []) in
  waiting toy 300 c /\ incoming c = sealed_record toy (read_key c) (read_iv c) (next_seq c) [] ++ [] /\
  fst (step toy (OpRead (zeros 4)) c) = Panic PUnwrap.
Proof. cbv zeta. split; [apply conn_in_waiting|]. split; vm_compute; reflexivity. Qed.

Example C32_case : let c := conn_in (forged_one ++ forged_one ++ toy_data 0 ty_data [x68; x69] 3) in
  waiting toy 300 c /\
  incoming c = forged_wire [(rfc_header 20, repeat x00 20); (rfc_header 20, repeat x00 20)] ++
    rfc_record toy (read_key c) (read_iv c) (next_seq c) ty_data [x68; x69] 3 ++ [] /\
  rfc_open toy (read_key c) (read_iv c) (next_seq c) (rfc_header 20) (repeat x00 20) = None /\
  map snd (fst (run toy [OpFillBuf; OpFillBuf; OpFillBuf] c)) = [Err CryptoError; Err CryptoError; Ok (VBytes [x68; x69])].
Proof. cbv zeta. split; [apply conn_in_waiting|]. split; [|split]; vm_compute; reflexivity. Qed.

(** C33: after the fatal alert handshake_failure, writing goes on, and the next data record
    is accepted with the same number. *)
Example C33_case : let c := conn_in (toy_data 0 ty_alert [x02; x28] 0 ++ toy_data 0 ty_data [x68; x69] 0) in
  waiting toy 300 c /\ incoming c = rfc_record toy (read_key c) (read_iv c) (next_seq c) ty_alert [x02; x28] 0 ++ toy_data 0 ty_data [x68; x69] 0 /\
  map snd (fst (run toy [OpRead (zeros 2); OpWrite [x41]; OpFlush; OpRead (zeros 2)] c)) =
    [Err InternalError; Ok (VCount 1); Ok VUnit; Ok (VRead 2 [x68; x69])].
Proof. cbv zeta. split; [apply conn_in_waiting|]. split; vm_compute; reflexivity. Qed.

Example C35_case : let c := conn_in (toy_data 0 ty_handshake a_request 0) in
  waiting toy 300 c /\ incoming c = rfc_record toy (read_key c) (read_iv c) (next_seq c) ty_handshake a_request 0 ++ [] /\
  fst (step toy (OpRead (zeros 2)) c) = Panic PUnimplemented.
Proof. cbv zeta. split; [apply conn_in_waiting|]. split; vm_compute; reflexivity. Qed.

(** C43: the second state has a window with unread data. *)
Example C43_case : let c := snd (run toy [OpRead (zeros 1)] (conn_in their_wire)) in
  in_use toy 300 c /\ unread c = [x69] /\ cn_opened c = true /\ cn_dec c <> dec_default.
Proof.
  cbv zeta. split; [|split; [vm_compute; reflexivity|split; [vm_compute; reflexivity|vm_compute; discriminate]]].
  exists (conn_in their_wire), [OpRead (zeros 1)]. split; [apply C14_case|]. split; [reflexivity|]. split; [|reflexivity].
  assert (E : fst (run toy [OpRead (zeros 1)] (conn_in their_wire)) = [(OpRead (zeros 1), Ok (VRead 1 [x68]))]) by (vm_compute; reflexivity).
  rewrite E. repeat constructor.
Qed.

Print Assumptions C18_exact.
Print Assumptions C18_zeros.
Print Assumptions C18_refuted.
Print Assumptions C32_forged.
Print Assumptions C32_next.
Print Assumptions C33_reported_partial.
Print Assumptions C33_refuted.
Print Assumptions C35_refuted.
Print Assumptions C35_causes_partial.
Print Assumptions C43_window.
