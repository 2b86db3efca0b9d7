(** * Receiving from a server that keeps to the protocol *)
From Coq Require Import List NArith Arith Bool Lia ZArith.
From Coq.Strings Require Import Byte.
From Coq Require Import ZifyBool ZifyNat ZifyN.
From Verif Require Import Base ParseBuffer Buffer Codes Extensions Crypto KeySchedule Config Handshake Record WriteBuffer
  Transport RecordReader ReadBuffer Connection Api BaseProofs ParseProofs SpecWire SpecCodes SpecMessages WireProofs ExtProofs SpecKeys SpecRecord SpecRead
  KeyProofs RecordProofs SpecSend SendProofs SpecHello HsWrite HsProofs ConnProofs FrameProofs DecryptProofs FlagProofs ReadProofs RecvProofs.
Import ListNotations.

(** ** One record *)

Lemma rfc_header_known n : known_type (rfc_header n).
Proof. reflexivity. Qed.

Lemma rfc_header_framed n (f : bytes) : length f = n -> (N.of_nat n < 65536)%N -> framed (rfc_header n) f.
Proof.
  intros Hl Hn. split; [apply rfc_header_length|]. unfold rfc_header. rewrite app_assoc. rewrite skipn_app_exact by (rewrite app_length, !uint_length; reflexivity).
  rewrite be_val_uint_small by exact Hn. now rewrite Hl.
Qed.

Definition is_data (t : byte) : bool := byte_eqb t ty_data.

Lemma bump_kadv k : bump k = kadv k 1. Proof. reflexivity. Qed.

(** Any record at all, from the position between two records. *)
Lemma rad_frame C W s d op h f rest : crypto_ok C -> rinv C W s d -> ready s ->
  stream (rd_rx s) = h ++ f ++ rest -> framed h f -> known_type h -> length f <= length (rd_buf s) ->
  exists o s' d' op' e, read_application_data C (s, (d, op)) = (o, (s', (d', op'))) /\
    ready s' /\ stream (rd_rx s') = rest /\ length (rd_buf s') = length (rd_buf s) /\ tracked W s' /\ rd_wf s' /\
    (o = Ok tt -> rx_size (rd_rx s') < rx_size (rd_rx s)) /\
    fate C (r_state (rd_ks s)) (r_transcript (rd_ks s)) h f o e /\ effect_on (r_state (rd_ks s)) d op e s' d' op'.
Proof.
  intros HC (Hw & Hiv & Hd & Htr) Hr Hs Hfr Hkt Hlim.
  destruct (ready_frame C s h f rest Hr Hs Hfr Hkt Hlim) as (rx' & Hs' & Hc' & Hread).
  set (pl := place s (length f)) in *.
  assert (Hpl : pl + length f <= length (rd_buf s)).
  { unfold pl, place. destruct (Nat.ltb_spec (length (rd_buf s)) (rd_decoded s + length f)); lia. }
  destruct (read_application_data C (s, (d, op))) as [o [s' [d' op']]] eqn:Er.
  destruct (rad_any C s d op o s' d' op' HC Hiv Hw Er) as (R1 & R2 & R3 & R4 & _).
  pose proof (sr_decode_safe C h pl f (r_transcript (rd_ks s)) (proj1 Hfr) Hkt (framed_length h f Hfr)) as Hsafe.
  assert (Hh : exists ks1, 
     let s1 := mk_rdst (splice (rd_buf s) pl f) (pl + length f) 0 rx' ks1 in
     fst (rd_read C s) = omap fst (sr_decode C h pl f (r_transcript (rd_ks s))) /\ snd (rd_read C s) = s1 /\
     match sr_decode C h pl f (r_transcript (rd_ks s)) with
     | Ok rt => ks1 = r_with_transcript (rd_ks s) (snd rt)
     | _ => ks1 = rd_ks s
     end).
  { rewrite Hread. destruct (sr_decode C h pl f (r_transcript (rd_ks s))) as [rt|e0|x| |]; eexists; cbv [omap obind]; cbn [fst snd]; auto. }
  destruct Hh as (ks1 & Hh1 & Hh2 & Hh3). set (s1 := mk_rdst (splice (rd_buf s) pl f) (pl + length f) 0 rx' ks1) in *.
  assert (Hb1 : length (rd_buf s1) = length (rd_buf s)) by (apply splice_length; lia).
  pose proof Er as Er2. unfold read_application_data in Er2. unfold bind at 1, on_fst at 1 in Er2. cbn [fst snd] in Er2.
  destruct (rd_read C s) as [o1 s1'] eqn:Erd. cbn [fst snd] in Hh1, Hh2. subst s1'.
  assert (Hh : same_place s' s1 /\ exists e, fate C (r_state (rd_ks s)) (r_transcript (rd_ks s)) h f o e /\ effect_on (r_state (rd_ks s)) d op e s' d' op').
  { apply (handle_record C s1 (r_transcript (rd_ks s)) (rd_ks s) h f d op o s' d' op' HC Hiv (proj1 Hfr) Hkt (framed_length h f Hfr)).
    - unfold rd_wf. rewrite Hb1. cbn. lia.
    - cbn. lia.
    - cbn [rd_decoded rd_buf s1]. replace (pl + length f - length f) with pl by lia.
      unfold splice, sub. rewrite skipn_app, skipn_all2 by (rewrite firstn_length; lia).
      rewrite firstn_length. replace (pl - Nat.min pl (length (rd_buf s))) with 0 by lia. cbn [skipn app].
      now apply firstn_app_exact.
    - cbn [rd_decoded s1]. replace (pl + length f - length f) with pl by lia.
      destruct (sr_decode C h pl f (r_transcript (rd_ks s))) as [rt|e0|x| |]; try contradiction; cbv [omap obind] in Hh1; subst o1.
      + split; [exact Hh3|exact Er2].
      + apply pair_equal_spec in Er2 as [<- E]. split; [reflexivity|]. split; [exact Hh3|now symmetry]. }
  destruct Hh as (((P1 & P2 & P3 & P4) & P5) & e & Hfate & Heff).
  exists o, s', d', op', e. split; [reflexivity|].
  split. { split; [rewrite P2; reflexivity|]. split; [rewrite P1, R2; cbn; lia|rewrite P3; exact Hc']. }
  split; [rewrite P3; exact Hs'|]. split; [exact R2|]. split; [now apply R4|]. split; [exact R1|].
  split; [|auto]. intros ->.
  destruct (rd_read_any C s _ s1 Hw Erd) as (_ & _ & _ & [(Hff & _)|(h0 & f0 & Hcm & _)]).
  - exfalso. destruct o1; try contradiction; discriminate.
  - destruct Hcm as (_ & _ & _ & _ & _ & Hx & _). rewrite P3. lia.
Qed.

(** The record with the next sequence number. *)
Lemma rad_record C W s d op t c pad rest : crypto_ok C -> rinv C W s d -> ready s ->
  let k := r_state (rd_ks s) in
  stream (rd_rx s) = rfc_record C (k_key k) (k_iv k) (k_counter k) t c pad ++ rest ->
  length c + 1 + pad + tag_len C <= length (rd_buf s) -> (N.of_nat (length c + 1 + pad + tag_len C) < 65536)%N ->
  exists o s' d' op' e, read_application_data C (s, (d, op)) = (o, (s', (d', op'))) /\
    ready s' /\ stream (rd_rx s') = rest /\ length (rd_buf s') = length (rd_buf s) /\ tracked W s' /\ rd_wf s' /\
    (o = Ok tt -> rx_size (rd_rx s') < rx_size (rd_rx s)) /\
    inner_fate C k (r_transcript (rd_ks s)) (rfc_inner t c pad) o e /\ effect_on k d op e s' d' op'.
Proof.
  intros HC Hr Hrd k Hs Hlim Hsz. rewrite (ok_tag_len C HC) in *.
  destruct (rfc_record_parts C (k_key k) (k_iv k) (k_counter k) t c pad HC) as (f & E & Hf & Ho). rewrite E, <- app_assoc in Hs.
  set (h := rfc_header (length c + 1 + pad + 16)) in *.
  destruct (rad_frame C W s d op h f rest HC Hr Hrd Hs) as (o & s' & d' & op' & e & R1 & R2 & R3 & R4 & R5 & R6 & R7 & R8 & R9);
    [apply rfc_header_framed; assumption|apply rfc_header_known|lia|].
  exists o, s', d', op', e. repeat (split; [assumption|]). split; [|assumption].
  fold k in R8. inversion R8; subst; try (match goal with E : hdr_content_type h = _ |- _ => discriminate E end);
      [congruence|]. match goal with H : rfc_open _ _ _ _ _ _ = Some ?i |- _ => rewrite Ho in H; inversion H; subst i end. assumption.
Qed.

Lemma rad_serve C W s d op t c pad rest : crypto_ok C -> rinv C W s d -> unread_of s d = [] -> ready s ->
  let k := r_state (rd_ks s) in
  stream (rd_rx s) = rfc_record C (k_key k) (k_iv k) (k_counter k) t c pad ++ rest ->
  served C (length (rd_buf s)) ((t, c), pad) -> (k_counter k < u64_max)%N ->
  exists s' d', read_application_data C (s, (d, op)) = (Ok tt, (s', (d', op))) /\
    ready s' /\ stream (rd_rx s') = rest /\ r_state (rd_ks s') = bump k /\ length (rd_buf s') = length (rd_buf s) /\
    rinv C W s' d' /\ unread_of s' d' = concat (data_of [(t, c)]) /\ rx_size (rd_rx s') < rx_size (rd_rx s).
Proof.
  intros HC Hri Hu Hr k Hs (Hty & Hlim & Hsz) Hcnt.
  destruct (rad_record C W s d op t c pad rest HC Hri Hr Hs Hlim Hsz) as (o & s' & d' & op' & e & R1 & R2 & R3 & R4 & R5 & R6 & R7 & Hif & Heff).
  pose proof Hri as (Hw & Hiv & Hd & Htr). fold k in Hif, Heff.
  assert (Htn : t <> x00) by (destruct Hty as [-> | [-> _]]; discriminate).
  pose proof (unpad_inner t c pad Htn) as Hunp.
  assert (Hfin : o = Ok tt /\ op' = op /\ r_state (rd_ks s') = bump k /\ dec_ok s' d' /\ unread_of s' d' = concat (data_of [(t, c)])).
  { destruct Hty as [-> | [-> (ms & Hms & Hnst)]].
    - inversion Hif; subst;
        try (match goal with H : _ = rfc_inner _ _ _ |- _ => destruct c; discriminate H end);
        try congruence; try lia;
        match goal with H : rfc_unpad _ = Some (?t0, ?c0) |- _ => rewrite Hunp in H; inversion H; subst t0 c0 end;
        try discriminate; try (match goal with H : content_type_of _ = Some ?x |- _ => cbn in H; inversion H; subst; intuition discriminate end).
      cbn [effect_on] in Heff. destruct Heff as (E1 & E2 & E3 & E4 & E5 & E6). repeat split; auto; try apply E5.
      rewrite E6. cbn. now rewrite app_nil_r.
    - pose proof (hs_pass_tickets C c ms (r_transcript (rd_ks s)) Hms Hnst) as Hpass.
      inversion Hif; subst o e; 
        try (match goal with H : [] = rfc_inner _ _ _ |- _ => destruct c; discriminate H end);
        try congruence; try lia;
        match goal with H : rfc_unpad _ = Some (?t0, ?c0) |- _ => rewrite Hunp in H; inversion H; subst t0 c0 end;
        try discriminate; try (match goal with H : content_type_of _ = Some ?x |- _ => cbn in H; inversion H; subst; intuition discriminate end);
        try congruence.
      cbn [effect_on] in Heff. destruct Heff as (E1 & E2 & E3). subst d' op'. split; [reflexivity|]. split; [reflexivity|]. split; [exact E1|].
      split; [unfold dec_ok in *; rewrite R4; exact Hd|].
      apply (unread_nil C W s d Hri) in Hu. unfold unread_of. rewrite Hu, Nat.sub_diag. reflexivity. }
  destruct Hfin as (-> & -> & F1 & F2 & F3).
  exists s', d'. split; [exact R1|]. split; [exact R2|]. split; [exact R3|]. split; [exact F1|]. split; [exact R4|].
  split; [|split; [exact F3|now apply R7]]. split; [exact R6|]. split; [rewrite F1; exact Hiv|]. split; [exact F2|exact R5].
Qed.

(** ** The loop that waits for data *)

Lemma fill_nonempty C W fuel s d op : rinv C W s d -> unread_of s d <> [] -> fill_loop C fuel (s, (d, op)) = (Ok tt, (s, (d, op))).
Proof.
  intros Hr Hu. destruct fuel; cbn [fill_loop]; unfold bind at 1, get at 1, bind at 1, lift at 1; cbn [fst snd];
    rewrite (dec_empty_spec C W s d Hr); destruct (unread_of s d); try contradiction; reflexivity.
Qed.

Lemma fill_empty C W fuel s d op : rinv C W s d -> unread_of s d = [] ->
  fill_loop C (S fuel) (s, (d, op)) = (read_application_data C ;;; fill_loop C fuel) (s, (d, op)).
Proof.
  intros Hr Hu. cbn [fill_loop]. unfold bind at 1, get at 1, bind at 1, lift at 1. cbn [fst snd].
  rewrite (dec_empty_spec C W s d Hr), Hu. reflexivity.
Qed.

Lemma data_of_cons t c l : data_of ((t, c) :: l) = data_of [(t, c)] ++ data_of l.
Proof. change ((t, c) :: l) with ([(t, c)] ++ l). apply data_of_app. Qed.

Lemma fill_serve C W : crypto_ok C -> forall srv fuel s d op tail,
  rinv C W s d -> unread_of s d = [] -> ready s ->
  let k := r_state (rd_ks s) in
  stream (rd_rx s) = server_wire C (k_key k) (k_iv k) (k_counter k) srv ++ tail ->
  Forall (served C (length (rd_buf s))) srv -> (k_counter k + N.of_nat (length srv) <= u64_max)%N ->
  rx_size (rd_rx s) < fuel ->
  exists srv1 srv2 s' d' fuel', srv = srv1 ++ srv2 /\
    rinv C W s' d' /\ ready s' /\ length (rd_buf s') = length (rd_buf s) /\
    r_state (rd_ks s') = kadv k (N.of_nat (length srv1)) /\
    stream (rd_rx s') = server_wire C (k_key k) (k_iv k) (k_counter k + N.of_nat (length srv1)) srv2 ++ tail /\
    unread_of s' d' = concat (data_of (map fst srv1)) /\
    fill_loop C fuel (s, (d, op)) = fill_loop C fuel' (s', (d', op)) /\ rx_size (rd_rx s') < fuel' /\
    (unread_of s' d' = [] -> srv2 = []).
Proof.
  intros HC. induction srv as [|[[t c] pad] srv IH]; intros fuel s d op tail Hr Hu Hrd k Hs Hf Hb Hfu.
  - exists [], [], s, d, fuel. cbn [length N.of_nat app map]. rewrite kadv_0, N.add_0_r. cbn in Hs. repeat split; auto; try apply Hr; try apply Hrd.
  - apply Forall_cons_iff in Hf as [Hf1 Hf]. cbn [server_wire] in Hs. rewrite <- app_assoc in Hs. cbn [length] in Hb.
    destruct (rad_serve C W s d op t c pad _ HC Hr Hu Hrd Hs Hf1) as (s1 & d1 & E & R1 & R2 & R3 & R4 & R5 & R6 & R7); [fold k; lia|].
    destruct fuel as [|fuel]; [lia|]. rewrite (fill_empty C W fuel s d op Hr Hu). unfold bind. rewrite E.
    destruct (unread_of s1 d1) as [|b q] eqn:Eu.
    + destruct (IH fuel s1 d1 op tail R5 Eu R1) as (srv1 & srv2 & s' & d' & fuel' & I1 & I2 & I3 & I4 & I5 & I6 & I7 & I8 & I9 & I10).
      * rewrite R3. cbn [bump k_key k_iv k_counter]. fold k. exact R2.
      * rewrite R4. exact Hf.
      * rewrite R3. cbn [bump k_counter]. fold k. lia.
      * lia.
      * exists (((t, c), pad) :: srv1), srv2, s', d', fuel'. rewrite R3 in I5, I6. cbn [bump kadv k_key k_iv k_counter k_traffic] in I5, I6. fold k in I5, I6.
        cbn [length]. subst srv. split; [reflexivity|]. split; [exact I2|]. split; [exact I3|]. split; [congruence|].
        assert (EN : (k_counter k + 1 + N.of_nat (length srv1) = k_counter k + N.of_nat (S (length srv1)))%N) by lia.
        unfold kadv in I5. cbn [bump kadv k_key k_iv k_counter k_traffic] in I5. rewrite EN in I5, I6. split; [exact I5|]. split; [exact I6|].
        split; [|auto]. cbn [map fst]. rewrite data_of_cons, concat_app, <- R6. exact I7.
    + exists [((t, c), pad)], srv, s1, d1, fuel. fold k in R3. rewrite R3. cbn [length app map fst].
      split; [reflexivity|]. split; [exact R5|]. split; [exact R1|]. split; [exact R4|]. split; [reflexivity|]. split; [exact R2|].
      rewrite Eu. split; [exact R6|]. split; [reflexivity|]. split; [lia|discriminate].
Qed.

(** ** One call *)

(** The connection moved from the records [srv] to the records [srv'], the keys and the
    buffer being the same. *)
Definition moved (c : conn) (srv : list sent_record) (c' : conn) (srv' : list sent_record) : Prop :=
  read_key c' = read_key c /\ read_iv c' = read_iv c /\ length (rd_buf (cn_rd c')) = length (rd_buf (cn_rd c)) /\
  (k_counter (rkey c') + N.of_nat (length srv') = k_counter (rkey c) + N.of_nat (length srv))%N.

Lemma moved_same c c' srv : cn_rd c' = cn_rd c -> moved c srv c' srv.
Proof. intros E. unfold moved, read_key, read_iv, rkey. rewrite E. auto. Qed.
Lemma moved_trans a x b y c z : moved a x b y -> moved b y c z -> moved a x c z.
Proof. intros (A1 & A2 & A3 & A4) (B1 & B2 & B3 & B4). repeat split; congruence. Qed.

(** The receiving side of [c] replaced. *)
Definition with_rd (c : conn) (s : rdst) (d : dec_info) (opn : bool) : conn := mk_conn s d (cn_wh c) (cn_shared c) opn.

Lemma step_waits C o (c : conn) : waits o = true -> exists (A : Type) (m : rbuf -> M rhalf tls_error A) (g : A -> value),
  forall c, step C o c = (x <- on_rh (b <- rh_read_buffered C ;; m b) ;; ret (g x)) c.
Proof.
  intros H. destruct o as [| | |dst| | |ops fin|]; try discriminate.
  - destruct dst as [|b0 dst0]; [discriminate|]. do 3 eexists. intros c0. reflexivity.
  - do 3 eexists. intros c0. reflexivity.
  - do 3 eexists. intros c0. reflexivity.
Qed.

Lemma step_filled C W c o s d fuel : waits o = true -> cn_opened c = true ->
  fill_loop C (S (rx_size (rd_rx (cn_rd c)))) (cn_rd c, (cn_dec c, true)) = fill_loop C fuel (s, (d, true)) ->
  rinv C W s d -> unread_of s d <> [] -> step C o c = step C o (with_rd c s d true).
Proof.
  intros Ho Hop Hf Hr Hu. destruct (step_waits C o c Ho) as (A & m & g & Hst). rewrite !Hst. set (m0 := bind (rh_read_buffered C) m).
  assert (E : forall s0 d0 n, fill_loop C n (s0, (d0, true)) = (Ok tt, (s, (d, true))) -> n = S (rx_size (rd_rx s0)) ->
     rh_read_buffered C (s0, (d0, true)) = (create_read_buffer d (rd_buf s), (s, (d, true)))).
  { intros s0 d0 n H ->. unfold rh_read_buffered, bind at 1, get at 1. cbn [fst snd]. unfold bind at 1. rewrite H. reflexivity. }
  rewrite (fill_nonempty C W _ _ _ _ Hr Hu) in Hf.
  assert (E1 := E _ _ _ Hf eq_refl). assert (E2 := E _ _ _ (fill_nonempty C W _ _ _ _ Hr Hu) eq_refl).
  assert (G : m0 (cn_rd c, (cn_dec c, true)) = m0 (s, (d, true))) by (unfold m0, bind; rewrite E1, E2; reflexivity).
  assert (G2 : on_rh m0 c = on_rh m0 (with_rd c s d true)).
  { unfold on_rh, with_rd. cbn [cn_rd cn_dec cn_opened cn_wh cn_shared]. rewrite Hop, G. reflexivity. }
  unfold bind. rewrite G2. reflexivity.
Qed.

Lemma step_fill_err C c o e s d opn : waits o = true -> cn_opened c = true ->
  fill_loop C (S (rx_size (rd_rx (cn_rd c)))) (cn_rd c, (cn_dec c, true)) = (Err e, (s, (d, opn))) ->
  step C o c = (Err e, with_rd c s d opn).
Proof.
  intros Ho Hop Hf. destruct (step_waits C o c Ho) as (A & m & g & Hst). rewrite Hst.
  unfold bind at 1. unfold on_rh. rewrite Hop. unfold bind at 1. unfold rh_read_buffered, bind at 1, get at 1. cbn [fst snd].
  unfold bind at 1. rewrite Hf. reflexivity.
Qed.

(** Calls that do not wait need nothing from the network. *)
Lemma step_nowait C W c o r c' : crinv C W c -> receives o = true -> waits o = false -> step C o c = (r, c') ->
  (exists v, r = Ok v) /\ cn_rd c' = cn_rd c /\ cn_opened c' = cn_opened c.
Proof.
  intros Hc Hr Hw H. destruct o as [| | |dst| |n| |]; try discriminate.
  - destruct dst; [|discriminate]. cbn in H. apply pair_equal_spec in H as [<- <-]. cbn. eauto.
  - cbn [step] in H. unfold bind at 1, on_rh, rh_consume, bind at 1, get at 1, bind at 1, lift at 1 in H. cbn [fst snd] in H.
    rewrite (create_spec C W _ _ Hc) in H. unfold bind at 1, lift at 1, rb_new in H. rewrite pop_spec in H by lia.
    unfold rh_drop, bind, get, rh_set_dec, modify, ret in H. cbn [fst snd rb_drop rb_used rb_consumed] in H.
    apply pair_equal_spec in H as [<- <-]. cbn. eauto.
Qed.

(** A connection in front of the records [srv] of the server, followed by [tail]. *)
Definition serving C W (srv : list sent_record) (tail : bytes) (c : conn) : Prop :=
  crinv C W c /\ ready (cn_rd c) /\ cn_opened c = true /\
  stream (rd_rx (cn_rd c)) = server_wire C (read_key c) (read_iv c) (k_counter (rkey c)) srv ++ tail /\
  Forall (served C (length (rd_buf (cn_rd c)))) srv /\ (k_counter (rkey c) + N.of_nat (length srv) <= u64_max)%N.

Lemma serving_rd C W srv tail c c' : cn_rd c' = cn_rd c -> crinv C W c' -> cn_opened c' = true -> serving C W srv tail c -> serving C W srv tail c'.
Proof. intros E H1 H2 (_ & S2 & _ & S4 & S5 & S6). unfold serving, read_key, read_iv, rkey in *. rewrite E. repeat (split; [assumption|]). assumption. Qed.

Lemma serve_step C W srv tail c o r c' : crypto_ok C -> serving C W srv tail c -> receives o = true -> step C o c = (r, c') ->
  exists srv1 srv2, srv = srv1 ++ srv2 /\
   ((exists v, r = Ok v) /\ serving C W srv2 tail c' /\ moved c srv c' srv2 /\ (unread c <> [] -> srv1 = []) /\
      (exists got, take o r (unread c ++ concat (data_of (map fst srv1))) got (unread c'))
    \/ waits o = true /\ srv2 = [] /\ unread c = [] /\ concat (data_of (map fst srv1)) = [] /\
       exists s d fuel, serving C W [] tail (with_rd c s d true) /\ unread_of s d = [] /\ rx_size (rd_rx s) < fuel /\
         fill_loop C (S (rx_size (rd_rx (cn_rd c)))) (cn_rd c, (cn_dec c, true)) = fill_loop C fuel (s, (d, true))).
Proof.
  intros HC Hsv Ho H. pose proof Hsv as (S1 & S2 & S3 & S4 & S5 & S6).
  assert (Hopn : forall c0 c1, step C o c0 = (r, c1) -> crinv C W c0 -> cn_opened c0 = true -> unread c0 <> [] ->
     (exists v, r = Ok v) /\ cn_rd c1 = cn_rd c0 /\ crinv C W c1 /\ cn_opened c1 = true /\ exists got, take o r (unread c0) got (unread c1)).
  { intros c0 c1 Hst Hc0 Hop0 Hu0. destruct (recv_step C W c0 o r c1 HC Hc0 Ho Hst) as (_ & _ & Hres).
    assert (G : exists l got, (unread c0 <> [] -> l = [] /\ cn_rd c1 = cn_rd c0 /\ (cn_opened c0 = true -> exists v, r = Ok v)) /\ crinv C W c1 /\
        take o r (unread c0 ++ concat (data_of l)) got (unread c1) /\
        (cn_opened c1 = cn_opened c0 \/ cn_opened c1 = false /\ r = Err ConnectionClosed /\ ended C W (rkey c0) l)).
    { destruct r as [v|e|x| |]; try contradiction.
      - destruct Hres as (l & g & _ & _ & R3 & _ & R5 & R6 & R7). exists l, g. auto.
      - destruct Hres as (l & g & _ & _ & R3 & _ & R5 & R6 & R7). exists l, g. auto.
      - destruct Hres as [Hres _]. congruence.
      - destruct Hres as (l & g & _ & _ & R3 & _ & R5 & R6 & R7). exists l, g. auto. }
    destruct G as (l & g & G1 & G2 & G3 & G4). destruct (G1 Hu0) as (-> & E1 & E2). destruct (E2 Hop0) as [v Ev].
    rewrite app_nil_r in G3. split; [eauto|]. split; [exact E1|]. split; [exact G2|]. split; [|eauto].
    destruct G4 as [G4|(_ & G4 & _)]; congruence. }
  destruct (waits o) eqn:Ew.
  2:{ exists [], srv. split; [reflexivity|]. left. destruct (step_nowait C W c o r c' S1 Ho Ew H) as ([v Hv] & E1 & E2).
      destruct (recv_step C W c o r c' HC S1 Ho H) as (_ & _ & Hres). rewrite Hv in Hres |- *.
      destruct Hres as (l & g & _ & R2 & R3 & _ & R5 & R6 & _).
      assert (l = []).
      { unfold rkey in R2. rewrite E1 in R2. apply (f_equal k_counter) in R2. cbn [kadv k_counter] in R2. destruct l; [reflexivity|cbn [length] in R2; lia]. }
      subst l. split; [eauto|]. split; [apply (serving_rd C W srv tail c c' E1 R3); [congruence|exact Hsv]|]. split; [now apply moved_same|]. split; [auto|]. cbn [map data_of filter concat] in *. eauto. }
  destruct (unread c) as [|b q] eqn:Eu.
  2:{ exists [], srv. split; [reflexivity|]. left.
      destruct (Hopn c c' H S1 S3) as (E1 & E2 & E3 & E4 & E5); [rewrite Eu; discriminate|].
      split; [exact E1|]. split; [apply (serving_rd C W srv tail c c' E2 E3 E4 Hsv)|]. split; [now apply moved_same|]. split; [auto|]. cbn [map data_of filter concat]. rewrite app_nil_r, <- Eu. exact E5. }
  destruct (fill_serve C W HC srv (S (rx_size (rd_rx (cn_rd c)))) (cn_rd c) (cn_dec c) true tail S1 Eu S2 S4 S5 S6 ltac:(lia))
    as (srv1 & srv2 & s & d & fuel & F1 & F2 & F3 & F4 & F5 & F6 & F7 & F8 & F9 & F10).
  exists srv1, srv2. split; [exact F1|].
  assert (Hsv2 : serving C W srv2 tail (with_rd c s d true)).
  { unfold serving, crinv, read_key, read_iv, rkey. cbn [cn_rd cn_dec cn_opened with_rd]. rewrite F5. cbn [kadv k_key k_iv k_counter].
    split; [exact F2|]. split; [exact F3|]. split; [reflexivity|]. split; [exact F6|]. rewrite F4. split.
    - rewrite F1 in S5. now apply Forall_app in S5.
    - rewrite F1, app_length in S6. unfold rkey in S6. lia. }
  destruct (unread_of s d) as [|b q] eqn:Eu2.
  - right. split; [reflexivity|]. specialize (F10 eq_refl). subst srv2. split; [reflexivity|]. split; [reflexivity|]. split; [now symmetry|].
    exists s, d, fuel. auto.
  - left. rewrite (step_filled C W c o s d fuel Ew S3 F8 F2) in H by (rewrite Eu2; discriminate).
    destruct (Hopn _ c' H) as (E1 & E2 & E3 & E4 & E5); [apply Hsv2|reflexivity|unfold unread; cbn [cn_rd cn_dec with_rd]; rewrite Eu2; discriminate|].
    split; [exact E1|]. split; [apply (serving_rd C W srv2 tail _ c' E2 E3 E4 Hsv2)|].
    split. { apply (moved_trans c srv (with_rd c s d true) srv2); [|now apply moved_same].
             unfold moved, read_key, read_iv, rkey. cbn [with_rd cn_rd]. rewrite F5. cbn [kadv k_key k_iv k_counter].
             repeat (split; [auto|]). rewrite F1, app_length. lia. }
    split; [congruence|].
    cbn [app]. rewrite <- F7. unfold unread in E5 at 1. cbn [cn_rd cn_dec with_rd] in E5. rewrite Eu2 in E5. exact E5.
Qed.

(** ** Whole histories *)

(** Records without application data are passed over. *)
Lemma serve_skip C W srv tail c : crypto_ok C -> serving C W srv tail c -> unread c = [] -> concat (data_of (map fst srv)) = [] ->
  exists s d fuel, serving C W [] tail (with_rd c s d true) /\ unread_of s d = [] /\ rx_size (rd_rx s) < fuel /\
    k_counter (r_state (rd_ks s)) = (k_counter (rkey c) + N.of_nat (length srv))%N /\
    read_key (with_rd c s d true) = read_key c /\ read_iv (with_rd c s d true) = read_iv c /\
    length (rd_buf s) = length (rd_buf (cn_rd c)) /\
    fill_loop C (S (rx_size (rd_rx (cn_rd c)))) (cn_rd c, (cn_dec c, true)) = fill_loop C fuel (s, (d, true)).
Proof.
  intros HC (S1 & S2 & S3 & S4 & S5 & S6) Hu Hnil.
  destruct (fill_serve C W HC srv (S (rx_size (rd_rx (cn_rd c)))) (cn_rd c) (cn_dec c) true tail S1 Hu S2 S4 S5 S6 ltac:(lia))
    as (srv1 & srv2 & s & d & fuel & F1 & F2 & F3 & F4 & F5 & F6 & F7 & F8 & F9 & F10).
  assert (E : unread_of s d = []).
  { rewrite F7. rewrite F1, map_app, data_of_app, concat_app in Hnil. now apply app_eq_nil in Hnil. }
  rewrite (F10 E), app_nil_r in *. subst srv1.
  exists s, d, fuel. split; [|split; [exact E|]; split; [exact F9|]].
  - unfold serving, crinv, read_key, read_iv, rkey. cbn [cn_rd cn_dec cn_opened with_rd]. rewrite F5. cbn [kadv k_key k_iv k_counter server_wire length].
    split; [exact F2|]. split; [exact F3|]. split; [reflexivity|]. split; [exact F6|]. split; [constructor|]. unfold rkey in S6. lia.
  - unfold read_key, read_iv, rkey. cbn [cn_rd with_rd]. rewrite F5. cbn [kadv k_key k_iv k_counter]. auto.
Qed.

(** At the end of the stream. *)
Lemma serve_eof C W srv c o r c' : crypto_ok C -> serving C W srv [] c -> unread c = [] -> concat (data_of (map fst srv)) = [] ->
  waits o = true -> step C o c = (r, c') -> r = Err IoError /\ serving C W [] [] c' /\ unread c' = [].
Proof.
  intros HC Hs Hu Hnil Hw H. destruct (serve_skip C W srv [] c HC Hs Hu Hnil) as (s & d & fuel & Hs1 & Hu1 & Hf & _ & _ & _ & _ & Hfl).
  destruct fuel as [|fuel]; [lia|].
  assert (Hrx : rd_rx s = []).
  { destruct Hs1 as (_ & (_ & _ & Hc) & _ & E & _). cbn [server_wire app with_rd cn_rd] in E, Hc. now apply stream_nil. }
  rewrite (fill_empty C W fuel s d true (proj1 Hs1) Hu1) in Hfl. unfold bind, read_application_data at 1 in Hfl.
  unfold bind, on_fst in Hfl. cbn [fst snd] in Hfl. rewrite (empty_read C s Hrx) in Hfl.
  rewrite (step_fill_err C c o _ _ _ _ Hw (proj1 (proj2 (proj2 Hs))) Hfl) in H. apply pair_equal_spec in H as [<- <-]. auto.
Qed.

(** At the server's close_notify. *)
Lemma serve_close C W srv c o r c' lvl pad rest : crypto_ok C ->
  serving C W srv (rfc_record C (read_key c) (read_iv c) (k_counter (rkey c) + N.of_nat (length srv)) ty_alert [lvl; x00] pad ++ rest) c ->
  lvl = x01 \/ lvl = x02 -> 3 + pad + tag_len C <= length (rd_buf (cn_rd c)) -> (N.of_nat (3 + pad + tag_len C) < 65536)%N ->
  (k_counter (rkey c) + N.of_nat (length srv) < u64_max)%N ->
  unread c = [] -> concat (data_of (map fst srv)) = [] ->
  waits o = true -> step C o c = (r, c') -> r = Err ConnectionClosed /\ cn_opened c' = false /\ crinv C W c' /\ unread c' = [].
Proof.
  intros HC Hs Hlvl Hlim Hsz Hmax Hu Hnil Hw H.
  destruct (serve_skip C W srv _ c HC Hs Hu Hnil) as (s & d & fuel & Hs1 & Hu1 & Hf & Hcnt & Hk & Hi & Hb & Hfl).
  destruct fuel as [|fuel]; [lia|].
  pose proof Hs1 as (T1 & T2 & _ & T4 & _). unfold crinv in T1. cbn [server_wire app with_rd cn_rd cn_dec] in T1, T2, T4.
  rewrite <- Hcnt, <- Hk, <- Hi in T4. unfold read_key, read_iv in T4. cbn [with_rd cn_rd] in T4.
  destruct (rad_record C W s d true ty_alert [lvl; x00] pad rest HC T1 T2 T4) as (o1 & s' & d' & op' & e & R1 & R2 & R3 & R4 & R5 & R6 & R7 & Hif & Heff);
    [rewrite Hb; exact Hlim|exact Hsz|].
  set (k := r_state (rd_ks s)) in *.
  pose proof (unpad_inner ty_alert [lvl; x00] pad ltac:(discriminate)) as Hunp.
  assert (Hal : exists l, fst (parse_alert (pb_new [lvl; x00])) = Ok (l, AD_CloseNotify)) by (destruct Hlvl as [-> | ->]; eexists; vm_compute; reflexivity).
  destruct Hal as [l Hal].
  assert (Hfin : o1 = Err ConnectionClosed /\ op' = false /\ d' = d /\ r_state (rd_ks s') = k).
  { inversion Hif; subst; try congruence; try lia;
      match goal with H : rfc_unpad _ = Some (?t0, ?c0) |- _ => rewrite Hunp in H; inversion H; subst t0 c0 end;
      try discriminate; try (match goal with H : content_type_of _ = Some ?x |- _ => cbn in H; inversion H; subst; intuition discriminate end);
      try congruence.
    destruct Heff as (E1 & E2 & E3). auto. }
  destruct Hfin as (-> & -> & -> & Ek).
  rewrite (fill_empty C W fuel s d true T1 Hu1) in Hfl. unfold bind in Hfl. rewrite R1 in Hfl.
  rewrite (step_fill_err C c o _ _ _ _ Hw (proj1 (proj2 (proj2 Hs))) Hfl) in H. apply pair_equal_spec in H as [<- <-].
  split; [reflexivity|]. split; [reflexivity|]. pose proof T1 as (_ & Hiv & Hd & _).
  assert (T1' : rinv C W s' d).
  { split; [exact R6|]. split; [rewrite Ek; exact Hiv|]. split; [|exact R5]. unfold dec_ok in *. rewrite R4. exact Hd. }
  split; [exact T1'|]. unfold unread. cbn [with_rd cn_rd cn_dec]. apply (unread_nil C W s' d T1'). now apply (unread_nil C W s d T1).
Qed.

Lemma map_fst_app {A B} (a b : list (A * B)) : map fst (a ++ b) = map fst a ++ map fst b. Proof. apply map_app. Qed.

Lemma other_serving C W srv tail c o r c' : serving C W srv tail c -> receives o = false -> is_close o = false ->
  step C o c = (r, c') -> serving C W srv tail c' /\ unread c' = unread c.
Proof.
  intros Hs Ho Hc H. destruct (other_step C c o r c' Ho Hc H) as (E1 & E2 & E3). split; [|unfold unread; now rewrite E1, E2].
  apply (serving_rd C W srv tail c c' E1); [|rewrite E3; apply Hs|exact Hs]. unfold crinv. rewrite E1, E2. apply Hs.
Qed.

Definition served_ok (p : op * outcome tls_error value) : Prop := receives (fst p) = true -> exists v, snd p = Ok v.

(** Up to the first receiving call that fails: everything is delivered. *)
Theorem serve_run C W tail : crypto_ok C -> forall ops srv c rs c', serving C W srv tail c -> run C ops c = (rs, c') ->
  (Forall served_ok rs /\ exists cs1 cs2 got q, data_of (map fst srv) = cs1 ++ cs2 /\ fifo (unread c) rs cs1 got q) \/
  exists pre o r post cs1 cs2 got, rs = pre ++ (o, r) :: post /\ Forall served_ok pre /\
    data_of (map fst srv) = cs1 ++ cs2 /\ concat cs2 = [] /\ fifo (unread c) pre cs1 got [] /\
    exists srv2 c0 c1 ops2, serving C W srv2 tail c0 /\ unread c0 = [] /\ concat (data_of (map fst srv2)) = [] /\ moved c srv c0 srv2 /\
      waits o = true /\ step C o c0 = (r, c1) /\
      (stops o r = true /\ post = [] \/ stops o r = false /\ run C ops2 c1 = (post, c')).
Proof.
  intros HC. induction ops as [|o ops IH]; intros srv c rs c' Hs H.
  - cbn in H. apply pair_equal_spec in H as [<- <-]. left. split; [constructor|]. exists [], (data_of (map fst srv)), [], (unread c).
    split; [reflexivity|constructor].
  - destruct (step C o c) as [r c1] eqn:Es. rewrite (run_cons' C o ops c r c1 Es) in H.
    (* a call that goes through *)
    assert (Hgo : forall srv1 srv2 got1, srv = srv1 ++ srv2 -> served_ok (o, r) -> serving C W srv2 tail c1 -> moved c srv c1 srv2 ->
       (unread c <> [] -> srv1 = []) -> take o r (unread c ++ concat (data_of (map fst srv1))) got1 (unread c1) -> stops o r = false ->
       (Forall served_ok rs /\ exists cs1 cs2 got q, data_of (map fst srv) = cs1 ++ cs2 /\ fifo (unread c) rs cs1 got q) \/
       exists pre o r post cs1 cs2 got, rs = pre ++ (o, r) :: post /\ Forall served_ok pre /\
         data_of (map fst srv) = cs1 ++ cs2 /\ concat cs2 = [] /\ fifo (unread c) pre cs1 got [] /\
         exists srv2 c0 c1 ops2, serving C W srv2 tail c0 /\ unread c0 = [] /\ concat (data_of (map fst srv2)) = [] /\ moved c srv c0 srv2 /\
           waits o = true /\ step C o c0 = (r, c1) /\
           (stops o r = true /\ post = [] \/ stops o r = false /\ run C ops2 c1 = (post, c'))).
    { intros srv1 srv2 got1 E Hok Hs1 Hm Hne Ht Est. rewrite Est in H.
      destruct (run C ops c1) as [rs1 c2] eqn:Erun. cbn [fst snd] in H. apply pair_equal_spec in H as [<- <-].
      assert (Ed : data_of (map fst srv) = data_of (map fst srv1) ++ data_of (map fst srv2)) by (rewrite E, map_app; apply data_of_app).
      destruct (IH srv2 c1 rs1 c2 Hs1 Erun) as [(I1 & cs1 & cs2 & got & q & I2 & I3)|(pre & o' & r' & post & cs1 & cs2 & got & I1 & I2 & I3 & I4 & I5 & srv4 & c0 & c3 & ops2 & J1 & J2 & J3 & J4 & J5 & J6 & J7)].
      - left. split; [constructor; [exact Hok|exact I1]|].
        exists (data_of (map fst srv1) ++ cs1), cs2, (got1 ++ got), q. split; [rewrite Ed, I2; apply app_assoc|].
        eapply ff_call; eauto. intros Hun. now rewrite (Hne Hun).
      - right. exists ((o, r) :: pre), o', r', post, (data_of (map fst srv1) ++ cs1), cs2, (got1 ++ got).
        split; [now rewrite I1|]. split; [constructor; [exact Hok|exact I2]|].
        split; [rewrite Ed, I3; apply app_assoc|]. split; [exact I4|].
        split; [eapply ff_call; eauto; intros Hun; now rewrite (Hne Hun)|].
        exists srv4, c0, c3, ops2. repeat (split; [assumption|]). split; [eapply moved_trans; eauto|]. auto. }
    destruct (receives o) eqn:Er.
    + destruct (serve_step C W srv tail c o r c1 HC Hs Er Es) as (srv1 & srv2 & E & [((v & Hv) & Hs1 & Hm & Hne & got1 & Ht)|(Hw & E2 & Hu & Hnil & _)]).
      * apply (Hgo srv1 srv2 got1); auto; [intros _; eauto|]. rewrite Hv. destruct o; try discriminate; reflexivity.
      * right. subst srv2. rewrite app_nil_r in E. subst srv1.
        exists [], o, r, (if stops o r then [] else fst (run C ops c1)), [], (data_of (map fst srv)), [].
        split; [destruct (stops o r); apply pair_equal_spec in H as [<- _]; reflexivity|]. split; [constructor|]. split; [reflexivity|].
        split; [exact Hnil|]. rewrite Hu. split; [constructor|].
        exists srv, c, c1, ops. repeat (split; [assumption|]). split; [now apply moved_same|]. split; [exact Hw|]. split; [exact Es|].
        destruct (stops o r); [left; auto|right; split; [reflexivity|]]. destruct (run C ops c1). apply pair_equal_spec in H as [_ <-]. reflexivity.
    + destruct (stops o r) eqn:Est.
      * apply pair_equal_spec in H as [<- <-]. left. split; [constructor; [cbn [served_ok fst]; unfold served_ok; cbn [fst]; congruence|constructor]|].
        exists [], (data_of (map fst srv)), ([] ++ []), (unread c). split; [reflexivity|]. change (@nil bytes) with (@nil bytes ++ []).
        eapply ff_call; [auto| |constructor]. cbn [concat]. rewrite app_nil_r. now apply tk_other.
      * assert (Hcl : is_close o = false) by (destruct o; try reflexivity; cbn in Est; destruct r; discriminate).
        destruct (other_serving C W srv tail c o r c1 Hs Er Hcl Es) as [Hs1 Hu1].
        apply (Hgo [] srv []); auto.
        -- intros Hr. cbn [fst] in Hr. congruence.
        -- destruct (other_step C c o r c1 Er Hcl Es) as (E1 & _). now apply moved_same.
        -- cbn [map data_of filter concat]. rewrite app_nil_r, Hu1. now apply tk_other.
Qed.

(** The whole history, when the stream ends after the server's records. *)
Theorem serve_run_eof C W : crypto_ok C -> forall ops srv c rs c', serving C W srv [] c -> run C ops c = (rs, c') ->
  exists cs1 cs2 got q, data_of (map fst srv) = cs1 ++ cs2 /\ fifo (unread c) rs cs1 got q /\
    Forall (fun p => receives (fst p) = true -> (exists v, snd p = Ok v) \/ snd p = Err IoError) rs /\
    (Exists (fun p => receives (fst p) = true /\ snd p = Err IoError) rs -> concat cs2 = [] /\ q = []).
Proof.
  intros HC. induction ops as [|o ops IH]; intros srv c rs c' Hs H.
  - cbn in H. apply pair_equal_spec in H as [<- <-]. exists [], (data_of (map fst srv)), [], (unread c).
    split; [reflexivity|]. split; [constructor|]. split; [constructor|]. intros HE. inversion HE.
  - destruct (step C o c) as [r c1] eqn:Es. rewrite (run_cons' C o ops c r c1 Es) in H.
    destruct (receives o) eqn:Er.
    + assert (Hst : stops o r = false -> rs = (o, r) :: fst (run C ops c1)) by (intros E; rewrite E in H; apply pair_equal_spec in H as [<- _]; reflexivity).
      destruct (run C ops c1) as [rs1 c2] eqn:Erun. cbn [fst] in Hst.
      destruct (serve_step C W srv [] c o r c1 HC Hs Er Es) as (srv1 & srv2 & E & [((v & Hv) & Hs1 & Hm & Hne & got1 & Ht)|(Hw & E2 & Hu & Hnil & _)]).
      * rewrite Hst by (rewrite Hv; destruct o; try discriminate; reflexivity).
        destruct (IH srv2 c1 rs1 c2 Hs1 Erun) as (cs1 & cs2 & got & q & I1 & I2 & I3 & I4).
        exists (data_of (map fst srv1) ++ cs1), cs2, (got1 ++ got), q.
        assert (Ed : data_of (map fst srv) = data_of (map fst srv1) ++ data_of (map fst srv2)) by (rewrite E, map_app; apply data_of_app).
        split; [rewrite Ed, I1; apply app_assoc|].
        split; [eapply ff_call; eauto; intros Hun; now rewrite (Hne Hun)|].
        split; [constructor; [intros _; left; eauto|exact I3]|].
        intros HE. inversion HE as [p l (_ & HE1)|p l HE1]; subst; [cbn [snd] in HE1; congruence|auto].
      * subst srv2. rewrite app_nil_r in E. subst srv1.
        destruct (serve_eof C W srv c o r c1 HC Hs Hu Hnil Hw Es) as (Hr & Hs1 & Hu1).
        rewrite Hst by (rewrite Hr; destruct o; try discriminate; reflexivity).
        destruct (IH [] c1 rs1 c2 Hs1 Erun) as (cs1 & cs2 & got & q & I1 & I2 & I3 & I4).
        cbn [map data_of filter] in I1. symmetry in I1. apply app_eq_nil in I1 as [-> ->].
        exists ([] ++ []), (data_of (map fst srv)), ([] ++ got), q. split; [reflexivity|].
        split. { eapply ff_call; [auto| |exact I2]. rewrite Hu, Hu1. cbn [concat app]. apply tk_failed. rewrite Hr. discriminate. }
        split; [constructor; [intros _; right; exact Hr|exact I3]|]. intros _. split; [exact Hnil|].
        apply fifo_split in I2. rewrite Hu1 in I2. cbn [concat app] in I2. symmetry in I2. now apply app_eq_nil in I2.
    + destruct (stops o r) eqn:Est.
      * apply pair_equal_spec in H as [<- <-]. exists [], (data_of (map fst srv)), ([] ++ []), (unread c). split; [reflexivity|].
        split. { change (@nil bytes) with (@nil bytes ++ []). eapply ff_call; [auto| |constructor]. cbn [concat]. rewrite app_nil_r. now apply tk_other. }
        split; [constructor; [cbn [fst]; congruence|constructor]|]. intros HE. inversion HE as [p l (HE0 & _)|p l HE1]; subst; [cbn [fst] in HE0; congruence|inversion HE1].
      * assert (Hcl : is_close o = false) by (destruct o; try reflexivity; cbn in Est; destruct r; discriminate).
        destruct (other_serving C W srv [] c o r c1 Hs Er Hcl Es) as [Hs1 Hu1].
        destruct (run C ops c1) as [rs1 c2] eqn:Erun. cbn [fst snd] in H. apply pair_equal_spec in H as [<- <-].
        destruct (IH srv c1 rs1 c2 Hs1 Erun) as (cs1 & cs2 & got & q & I1 & I2 & I3 & I4).
        exists ([] ++ cs1), cs2, ([] ++ got), q. split; [exact I1|].
        split. { eapply ff_call; [auto| |exact I2]. cbn [concat]. rewrite app_nil_r, Hu1. now apply tk_other. }
        split; [constructor; [cbn [fst]; congruence|exact I3]|].
        intros HE. inversion HE as [p l (HE0 & _)|p l HE1]; subst; [cbn [fst] in HE0; congruence|auto].
Qed.

(** A history of [read]s only delivers what they return. *)
Lemma fifo_reads : forall rs q cs got q', fifo q rs cs got q' -> only_reads (map fst rs) -> got = read_bytes rs.
Proof.
  induction 1 as [q|q o r rs cs1 cs got1 q1 got q2 _ Ht _ IH]; intros Ho; [reflexivity|].
  cbn [map fst] in Ho. apply Forall_cons_iff in Ho as [Ho1 Ho]. unfold read_bytes. cbn [map concat]. rewrite (IH Ho). f_equal.
  inversion Ht; subst; try reflexivity.
  - set (z := q ++ concat cs1) in *. symmetry. apply firstn_app_exact. rewrite firstn_length. lia.
  - destruct (Ho1 eq_refl) as [dst Hd]. discriminate.
  - destruct (Ho1 eq_refl) as [dst Hd]. discriminate.
  - destruct o; try reflexivity. destruct r as [v| | | |]; try reflexivity. exfalso.
    match goal with H : forall v, _ <> Ok v |- _ => exact (H v eq_refl) end.
  - destruct o; try reflexivity; discriminate.
Qed.
