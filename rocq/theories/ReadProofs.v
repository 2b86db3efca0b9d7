(** * The receiving side: one record, and the loops over records *)
From Coq Require Import List NArith Arith Bool Lia ZArith.
From Coq.Strings Require Import Byte.
From Coq Require Import ZifyBool ZifyNat ZifyN.
From Verif Require Import Base ParseBuffer Buffer Codes Extensions Crypto KeySchedule Config Handshake Record
  Transport RecordReader ReadBuffer Connection Api BaseProofs ParseProofs SpecWire SpecCodes SpecMessages WireProofs ExtProofs SpecKeys SpecRecord SpecRead
  KeyProofs RecordProofs SpecSend SendProofs FrameProofs DecryptProofs FlagProofs.
Import ListNotations.

(** ** Handshake messages on the open connection *)

Definition with_tr (s : rdst) (tr : bytes) : rdst :=
  mk_rdst (rd_buf s) (rd_decoded s) (rd_pending s) (rd_rx s) (r_with_transcript (rd_ks s) tr).

Lemma with_tr_tr s a b : with_tr (with_tr s a) b = with_tr s b. Proof. reflexivity. Qed.

(** The outcome of the messages in one protected record: all NewSessionTicket, or the first
    one that is not. *)
Fixpoint hs_pass (C : crypto) (fuel : nat) (tr : bytes) (p : pbuf) : outcome tls_error unit :=
  if length (pb_buf p) - pb_pos p =? 0 then Ok tt
  else
    match fuel with
    | O => Diverge
    | S f =>
        match read_server_handshake C tr p with
        | (Ok (SH_NewSessionTicket, tr'), p') => hs_pass C f tr' p'
        | (Ok _, _) => Panic PUnimplemented
        | (o, _) => omap (fun _ => tt) o
        end
    end.

Lemma hs_loop_read C n : forall fuel p s x o st,
  pwf p -> length (pb_buf p) - pb_pos p < fuel ->
  handshake_loop C (read_handler n) fuel p (s, x) = (o, st) ->
  exists s', st = (s', x) /\ (s' = s \/ exists tr, s' = with_tr s tr) /\ o = hs_pass C fuel (r_transcript (rd_ks s)) p /\
    match o with
    | Ok _ => True
    | Err e => e <> ConnectionClosed
    | Panic q => q = PUnimplemented
    | _ => False
    end.
Proof.
  induction fuel as [|fuel IH]; intros p s x o st Hp Hf H; [lia|].
  cbn [handshake_loop] in H. unfold bind at 1, lift at 1, pb_remaining in H. unfold pwf in Hp. rewrite usize_sub_ok in H by exact Hp.
  destruct (Nat.eqb_spec (length (pb_buf p) - pb_pos p) 0) as [E|E].
  { inversion H. subst. exists s. cbn [hs_pass]. rewrite (proj2 (Nat.eqb_eq _ _) E). auto. }
  unfold bind at 1, get at 1 in H. cbn [fst] in H. cbn [hs_pass]. rewrite (proj2 (Nat.eqb_neq _ _) E).
  pose proof (read_server_handshake_spec C (r_transcript (rd_ks s)) p Hp) as Hs.
  pose proof (nc_read_handshake C (r_transcript (rd_ks s)) p) as Hnc.
  destruct (read_server_handshake C (r_transcript (rd_ks s)) p) as [[[hm tr']|e|q| |] p']; try contradiction.
  2:{ unfold bind, lift in H. inversion H. subst. exists s. split; [reflexivity|]. split; [auto|]. split; [reflexivity|]. intros ->. now apply Hnc. }
  destruct Hs as (Hb & Hpos & Hp' & _).
  unfold bind at 1, lift at 1 in H. unfold bind at 1, on_fst at 1, set_transcript, modify in H. cbn [fst snd] in H.
  fold (with_tr s tr') in H. unfold bind at 1, call_cb at 1 in H. cbn [fst snd read_handler] in H.
  destruct hm; try (unfold panic in H; inversion H; subst; eexists; split; [reflexivity|]; split; [right; eauto|split; reflexivity]).
  unfold ret at 1 in H.
  apply IH in H; [|exact Hp'|rewrite Hb; lia].
  destruct H as (s' & -> & Hs' & Ho1 & Ho). exists s'. split; [reflexivity|]. split; [|split; [exact Ho1|exact Ho]]. right.
  destruct Hs' as [-> | [tr ->]]; [eauto|]. rewrite with_tr_tr. eauto.
Qed.

(** ** Tickets *)

Lemma nst_block_ok items :
  Forall (fun i : ext_item => recognised (fst i) -> fst i = 42%N) items ->
  forall acc, length acc + length (filter (fun i => N.eqb (fst i) 42) items) <= 1 ->
  exists x, block_result grp_new_session_ticket 1 acc items = Ok x.
Proof.
  induction 1 as [|[t b] items Hi _ IH]; intros acc Hn; [eexists; reflexivity|]. cbn [block_result].
  cbn [filter fst] in Hn. destruct (ext_type_of t) as [ty|] eqn:Et.
  - assert (Hr : recognised t).
    { destruct (in_dec N.eq_dec t (map fst iana_ext_type)) as [H|H]; [exact H|]. apply not_recognised_of in H. congruence. }
    cbn [fst] in Hi. specialize (Hi Hr). subst t. inversion Et. subst ty. cbn [grp_new_session_ticket].
    cbn in Hn |- *. destruct acc; [|cbn in Hn; lia]. cbn [length Nat.ltb Nat.leb]. apply IH. cbn. lia.
  - apply IH. destruct (N.eqb t 42) eqn:E42; cbn [length] in Hn; lia.
Qed.

Lemma hs_pass_nst C : forall ms pre fuel tr, Forall is_nst ms -> length (concat ms) <= fuel ->
  hs_pass C fuel tr (at_pos pre (concat ms) []) = Ok tt.
Proof.
  induction ms as [|m ms IH]; intros pre fuel tr Hm Hf.
  - destruct fuel; cbn [hs_pass]; unfold at_pos; cbn [pb_buf pb_pos concat app]; rewrite ?app_length; cbn [length];
      replace (length pre + 0 - length pre) with 0 by lia; reflexivity.
  - apply Forall_cons_iff in Hm as [(l & a & n & t & items & -> & Hfo & Hbo & Hi & Hc) Hm].
    set (m := message (F_NewSessionTicket l a n t) items) in *.
    assert (Hl : 4 <= length m).
    { unfold m, message, vec. rewrite !app_length, !uint_length. lia. }
    cbn [concat] in *. rewrite app_length in Hf. destruct fuel as [|fuel]; [lia|]. cbn [hs_pass].
    unfold at_pos at 1 2. cbn [pb_buf pb_pos]. rewrite !app_length. cbn [length].
    destruct (Nat.eqb_spec (length pre + (length m + length (concat ms) + 0) - length pre) 0) as [E|_]; [lia|].
    destruct (nst_block_ok items Hi [] ltac:(cbn; lia)) as [x Hx].
    destruct (runs_message C (F_NewSessionTicket l a n t) items Hfo Hbo pre (concat ms)) as [R1 R2].
    cbn [frame_message msg_group msg_cap] in R1, R2. rewrite Hx in R1, R2. cbv [omap obind] in R1, R2. cbn [built] in R1, R2.
    specialize (R2 _ eq_refl). fold m in R1, R2.
    replace (at_pos pre (m ++ concat ms) []) with (at_pos pre m (concat ms)) by (unfold at_pos; now rewrite app_nil_r).
    unfold read_server_handshake. unfold bind at 1, gets at 1.
    destruct (parse_server_handshake C (at_pos pre m (concat ms))) as [o p'] eqn:Ep. cbn [fst snd] in R1, R2. subst o p'.
    unfold bind at 1. rewrite Ep. unfold bind, gets, lift, ret. unfold pb_offset at 1 2. unfold pb_as_slice. cbn [pb_buf pb_pos].
    unfold at_pos. cbn [pb_buf pb_pos]. rewrite app_nil_l.
    rewrite slice_rng_ok by (rewrite !app_length; lia).
    specialize (IH (pre ++ m) fuel). unfold at_pos in IH. rewrite app_nil_r in IH. apply IH; [exact Hm|lia].
Qed.

Lemma hs_pass_tickets C c ms tr : c = concat ms -> Forall is_nst ms -> hs_pass C (S (length c)) tr (pb_new c) = Ok tt.
Proof.
  intros -> Hm. pose proof (hs_pass_nst C ms [] (S (length (concat ms))) tr Hm ltac:(lia)) as H.
  unfold at_pos in H. cbn [length app] in H. rewrite app_nil_r in H. exact H.
Qed.

Lemma is_nst_ticket C tr f : is_nst f -> exists tr', fst (read_server_handshake C tr (pb_new f)) = Ok (SH_NewSessionTicket, tr').
Proof.
  intros Hf. pose proof (hs_pass_tickets C f [f] tr ltac:(cbn [concat]; now rewrite app_nil_r) (Forall_cons _ Hf (Forall_nil _))) as H.
  assert (Hl : length f <> 0).
  { destruct Hf as (l & a & n & t & items & -> & _). unfold message, vec. rewrite !app_length, !uint_length. lia. }
  cbn [hs_pass] in H. unfold pb_new at 1 2 in H. cbn [pb_buf pb_pos] in H. rewrite Nat.sub_0_r in H.
  rewrite (proj2 (Nat.eqb_neq _ _) Hl) in H.
  destruct (read_server_handshake C tr (pb_new f)) as [[[m tr']|e|x| |] p']; try discriminate. destruct m; try discriminate. exists tr'. reflexivity.
Qed.

Lemma parse_close f l : fst (parse_alert (pb_new f)) = Ok (l, AD_CloseNotify) -> is_close_notify f.
Proof.
  destruct f as [|a [|b f]]; [discriminate|destruct a; discriminate|]. intros H.
  exists a, f.
  assert (E : fst (parse_alert (pb_new (a :: b :: f))) =
    (l' <-- ok_or DecodeError (alert_level_of (Byte.to_N a)) ;; d' <-- ok_or DecodeError (alert_desc_of (Byte.to_N b)) ;; Ok (l', d'))).
  { unfold parse_alert. cbn. destruct (alert_level_of (Byte.to_N a)); [|reflexivity]. cbn. destruct (alert_desc_of (Byte.to_N b)); reflexivity. }
  rewrite E in H. destruct a; try discriminate H; (destruct b; try discriminate H); auto.
Qed.

(** ** One record *)

(** What a record does to the connection. *)
Inductive effect := Kept | Counted | Shut | Window (content : bytes) | Dead.

Definition is_ticket C tr (f : bytes) : Prop :=
  exists tr', fst (read_server_handshake C tr (pb_new f)) = Ok (SH_NewSessionTicket, tr').

(** The fate of an authentic record with inner plaintext [inner]. *)
Inductive inner_fate (C : crypto) (k : kstate) (tr : bytes) : bytes -> outcome tls_error unit -> effect -> Prop :=
| if_empty : inner_fate C k tr [] (Panic PUnwrap) Kept
| if_zeros inner : inner <> [] -> rfc_unpad inner = None -> inner_fate C k tr inner (Err Unimplemented) Kept
| if_unknown inner t c : rfc_unpad inner = Some (t, c) -> content_type_of (Byte.to_N t) = None ->
    inner_fate C k tr inner (Err InvalidRecord) Kept
| if_other inner t c ct : rfc_unpad inner = Some (t, c) -> content_type_of (Byte.to_N t) = Some ct ->
    ct = CT_Invalid \/ ct = CT_ChangeCipherSpec -> inner_fate C k tr inner (Err Unimplemented) Kept
| if_data inner t c : rfc_unpad inner = Some (t, c) -> content_type_of (Byte.to_N t) = Some CT_ApplicationData ->
    (k_counter k < u64_max)%N -> inner_fate C k tr inner (Ok tt) (Window c)
| if_tickets inner t c : rfc_unpad inner = Some (t, c) -> content_type_of (Byte.to_N t) = Some CT_Handshake ->
    hs_pass C (S (length c)) tr (pb_new c) = Ok tt -> (k_counter k < u64_max)%N -> inner_fate C k tr inner (Ok tt) Counted
| if_hs_bad inner t c e : rfc_unpad inner = Some (t, c) -> content_type_of (Byte.to_N t) = Some CT_Handshake ->
    hs_pass C (S (length c)) tr (pb_new c) = Err e -> e <> ConnectionClosed -> inner_fate C k tr inner (Err e) Kept
| if_hs inner t c : rfc_unpad inner = Some (t, c) -> content_type_of (Byte.to_N t) = Some CT_Handshake ->
    hs_pass C (S (length c)) tr (pb_new c) = Panic PUnimplemented -> inner_fate C k tr inner (Panic PUnimplemented) Kept
| if_alert_bad inner t c e : rfc_unpad inner = Some (t, c) -> content_type_of (Byte.to_N t) = Some CT_Alert ->
    fst (parse_alert (pb_new c)) = Err e -> e <> ConnectionClosed -> inner_fate C k tr inner (Err e) Kept
| if_alert inner t c l d : rfc_unpad inner = Some (t, c) -> content_type_of (Byte.to_N t) = Some CT_Alert ->
    fst (parse_alert (pb_new c)) = Ok (l, d) -> d <> AD_CloseNotify -> inner_fate C k tr inner (Err InternalError) Kept
| if_close inner t c l : rfc_unpad inner = Some (t, c) -> content_type_of (Byte.to_N t) = Some CT_Alert ->
    fst (parse_alert (pb_new c)) = Ok (l, AD_CloseNotify) -> inner_fate C k tr inner (Err ConnectionClosed) Shut
| if_last inner t c : rfc_unpad inner = Some (t, c) ->
    content_type_of (Byte.to_N t) = Some CT_ApplicationData \/
    content_type_of (Byte.to_N t) = Some CT_Handshake /\ hs_pass C (S (length c)) tr (pb_new c) = Ok tt ->
    (u64_max <= k_counter k)%N -> inner_fate C k tr inner (Panic PUnwrap) Dead.

(** The fate of the record [h], [f] read with key state [k], and what the call reports. *)
Inductive fate (C : crypto) (k : kstate) (tr h f : bytes) : outcome tls_error unit -> effect -> Prop :=
(* unprotected records *)
| ft_invalid : hdr_content_type h = Ok CT_Invalid -> fate C k tr h f (Err Unimplemented) Kept
| ft_ccs : hdr_content_type h = Ok CT_ChangeCipherSpec -> fate C k tr h f (Err InternalError) Kept
| ft_alert_bad e : hdr_content_type h = Ok CT_Alert -> fst (parse_alert (pb_new f)) = Err e -> e <> ConnectionClosed ->
    fate C k tr h f (Err e) Kept
| ft_alert l d : hdr_content_type h = Ok CT_Alert -> fst (parse_alert (pb_new f)) = Ok (l, d) -> d <> AD_CloseNotify ->
    fate C k tr h f (Err InternalError) Kept
| ft_close l : hdr_content_type h = Ok CT_Alert -> fst (parse_alert (pb_new f)) = Ok (l, AD_CloseNotify) ->
    fate C k tr h f (Err ConnectionClosed) Shut
| ft_hs_bad e : hdr_content_type h = Ok CT_Handshake -> fst (read_server_handshake C tr (pb_new f)) = Err e -> e <> ConnectionClosed ->
    fate C k tr h f (Err e) Kept
| ft_ticket : hdr_content_type h = Ok CT_Handshake -> is_ticket C tr f -> fate C k tr h f (Ok tt) Kept
| ft_hs m tr' : hdr_content_type h = Ok CT_Handshake -> fst (read_server_handshake C tr (pb_new f)) = Ok (m, tr') ->
    m <> SH_NewSessionTicket -> fate C k tr h f (Panic PUnimplemented) Kept
(* protected records *)
| ft_forged : hdr_content_type h = Ok CT_ApplicationData ->
    rfc_open C (k_key k) (k_iv k) (k_counter k) h f = None -> fate C k tr h f (Err CryptoError) Kept
| ft_open inner o e : hdr_content_type h = Ok CT_ApplicationData ->
    rfc_open C (k_key k) (k_iv k) (k_counter k) h f = Some inner -> inner_fate C k tr inner o e -> fate C k tr h f o e.

Definition dec_ok (s : rdst) (d : dec_info) : Prop :=
  d_consumed d <= d_len d /\ d_offset d + d_len d <= length (rd_buf s).

Definition effect_on (k : kstate) (d : dec_info) (op : bool) (e : effect) (s' : rdst) (d' : dec_info) (op' : bool) : Prop :=
  match e with
  | Kept => r_state (rd_ks s') = k /\ d' = d /\ op' = op
  | Counted => r_state (rd_ks s') = bump k /\ d' = d /\ op' = op
  | Shut => r_state (rd_ks s') = k /\ d' = d /\ op' = false
  | Window c => r_state (rd_ks s') = bump k /\ op' = op /\ d_consumed d' = 0 /\ d_len d' = length c /\ dec_ok s' d' /\ unread_of s' d' = c
  | Dead => r_state (rd_ks s') = k /\ op' = op
  end.

Lemma app_len_inj {A} (a b c d : list A) : length a = length c -> a ++ b = c ++ d -> a = c /\ b = d.
Proof.
  revert c. induction a as [|x a IH]; intros [|y c] Hl H; try discriminate; [auto|].
  cbn in *. inversion H. subst. destruct (IH c) as [-> ->]; auto.
Qed.

Lemma decrypted_facts s off f inner : off + length f <= length (rd_buf s) -> length inner <= length f ->
  length (rd_buf (decrypted s off f inner)) = length (rd_buf s) /\
  rd_decoded (decrypted s off f inner) = rd_decoded s /\ rd_pending (decrypted s off f inner) = rd_pending s /\
  rd_rx (decrypted s off f inner) = rd_rx s /\ rd_ks (decrypted s off f inner) = rd_ks s /\
  forall c rest, inner = c ++ rest -> sub (rd_buf (decrypted s off f inner)) off (length c) = c.
Proof.
  intros H1 H2. unfold decrypted, with_buf. cbn [rd_buf rd_decoded rd_pending rd_rx rd_ks].
  assert (L : length (splice f 0 inner) = length f) by (apply splice_length; lia).
  split; [apply splice_length; lia|]. repeat split. intros c rest Hc.
  pose proof (splice_sub (rd_buf s) off (splice f 0 inner) ltac:(lia)) as E.
  change (splice f 0 inner) with (inner ++ skipn (length inner) f) in *. rewrite Hc in *. rewrite <- app_assoc in *.
  set (tl := rest ++ skipn _ _) in *. rewrite app_length, sub_app_split in E. 
  assert (Lc : length (sub (splice (rd_buf s) off (c ++ tl)) off (length c)) = length c).
  { rewrite sub_length. rewrite splice_length; [|rewrite app_length in L; rewrite app_length; lia]. rewrite app_length in L. lia. }
  exact (proj1 (app_len_inj _ _ _ _ Lc E)).
Qed.

Lemma increment_spec (s : rdst) (x : dec_info * bool) :
  on_fst rd_increment (s, x) =
    if (k_counter (r_state (rd_ks s)) <? u64_max)%N
    then (Ok tt, (mk_rdst (rd_buf s) (rd_decoded s) (rd_pending s) (rd_rx s) (r_with_state (rd_ks s) (bump (r_state (rd_ks s)))), x))
    else (Panic PUnwrap, (s, x)).
Proof.
  unfold on_fst, rd_increment, bind, get, lift, put, increment_counter, bump. cbn [fst snd].
  destruct (k_counter (r_state (rd_ks s)) <? u64_max)%N; reflexivity.
Qed.

Lemma alert_desc_eq_dec (a b : alert_desc) : {a = b} + {a <> b}.
Proof. decide equality. Qed.

(** The same position in the same transport and buffer. *)
Definition same_pos (a b : rdst) : Prop :=
  rd_decoded a = rd_decoded b /\ rd_pending a = rd_pending b /\ rd_rx a = rd_rx b /\ length (rd_buf a) = length (rd_buf b).

(** ... with the same bytes waiting to become part of a record. *)
Definition same_place (a b : rdst) : Prop := same_pos a b /\ pend a = pend b.

Lemma decrypted_pend s off f inner : off + length f = rd_decoded s -> rd_wf s -> length inner <= length f ->
  pend (decrypted s off f inner) = pend s.
Proof.
  intros Ho Hw Hl. unfold rd_wf in Hw. unfold pend, decrypted, with_buf. cbn [rd_buf rd_decoded rd_pending]. unfold sub. f_equal.
  unfold splice at 1. assert (L : length (splice f 0 inner) = length f) by (apply splice_length; lia).
  assert (L2 : length (firstn off (rd_buf s)) = off) by (rewrite firstn_length; lia).
  rewrite skipn_app, L2, skipn_all2 by (rewrite L2; lia). cbn [app]. rewrite skipn_app, L, skipn_all2 by (rewrite L; lia). cbn [app].
  rewrite Ho. replace (rd_decoded s - off - length f) with 0 by lia. reflexivity.
Qed.

Lemma same_pos_tr s tr : same_pos (with_tr s tr) s. Proof. repeat split. Qed.

(** The handling of a complete record. *)
Lemma handle_record C s1 tr ks h f d op o s' d' op' :
  crypto_ok C -> length (k_iv (r_state ks)) = iv_len C -> length h = 5 -> known_type h ->
  hdr_content_length h = Ok (length f) -> rd_wf s1 ->
  length f <= rd_decoded s1 -> sub (rd_buf s1) (rd_decoded s1 - length f) (length f) = f ->
  match sr_decode C h (rd_decoded s1 - length f) f tr with
  | Ok rt => rd_ks s1 = r_with_transcript ks (snd rt) /\
      decrypt_record C (read_handler (length (rd_buf s1))) (fst rt) (s1, (d, op)) = (o, (s', (d', op')))
  | Err e => o = Err e /\ rd_ks s1 = ks /\ (s', (d', op')) = (s1, (d, op))
  | _ => False
  end ->
  same_place s' s1 /\ exists e, fate C (r_state ks) tr h f o e /\ effect_on (r_state ks) d op e s' d' op'.
Proof.
  intros HC Hiv Hl Hk Hn Hw Hfl Hsub H.
  assert (Hkept : r_state (rd_ks s1) = r_state ks -> (s', (d', op')) = (s1, (d, op)) ->
      same_place s' s1 /\ effect_on (r_state ks) d op Kept s' d' op').
  { intros E1 E2. apply pair_equal_spec in E2 as [-> E2]. apply pair_equal_spec in E2 as [-> ->]. repeat split. exact E1. }
  unfold sr_decode in H. rewrite Hn in H. cbn [obind] in H. rewrite Nat.eqb_refl in H. cbn [negb] in H.
  destruct (hdr_content_type h) as [t|e|x| |] eqn:Et; cbn [obind] in H; try contradiction.
  2:{ exfalso. unfold known_type, hdr_decode, hdr_content_type in *. destruct (index h 0); cbn in *; try discriminate.
      destruct (content_type_of _); discriminate. }
  destruct t.
  - (* Invalid *) destruct H as (-> & Ek & E). destruct (Hkept ltac:(now rewrite Ek) E) as [A B]. split; [exact A|].
    exists Kept. split; [now constructor|exact B].
  - (* ChangeCipherSpec *) destruct H as (Ek & H). cbn in H. apply pair_equal_spec in H as [<- E]. symmetry in E.
    destruct (Hkept ltac:(now rewrite Ek) E) as [A B]. split; [exact A|]. exists Kept. split; [now apply ft_ccs|exact B].
  - (* Alert *)
    destruct (fst (parse_alert (pb_new f))) as [[l ds]|e|x| |] eqn:Ea; cbn [obind fst snd] in H; try contradiction.
    + destruct H as (Ek & H). cbn in H. unfold call_cb in H. cbn [fst snd read_handler] in H.
      destruct (alert_desc_eq_dec ds AD_CloseNotify) as [->|Hne].
      * unfold bind, modify, fail in H. cbn [fst snd] in H. apply pair_equal_spec in H as [<- E].
        apply pair_equal_spec in E as [<- E]. apply pair_equal_spec in E as [<- <-].
        split; [repeat split|]. exists Shut. split; [eapply ft_close; eauto|]. cbn. rewrite Ek. auto.
      * assert (H' : (Err InternalError, (s1, (d, op))) = (o, (s', (d', op')))) by (destruct ds; try exact H; contradiction).
        apply pair_equal_spec in H' as [<- E]. symmetry in E. destruct (Hkept ltac:(now rewrite Ek) E) as [A B].
        split; [exact A|]. exists Kept. split; [eapply ft_alert; eauto|exact B].
    + destruct H as (-> & Ek & E). destruct (Hkept ltac:(now rewrite Ek) E) as [A B]. split; [exact A|].
      exists Kept. split; [|exact B]. eapply ft_alert_bad; eauto. intros ->.
      apply (nc_parse_alert (pb_new f)). exact Ea.
  - (* Handshake *)
    destruct (fst (read_server_handshake C tr (pb_new f))) as [[m tr']|e|x| |] eqn:Ea; cbn [obind fst snd] in H; try contradiction.
    + destruct H as (Ek & H). cbn in H. unfold call_cb in H. cbn [fst snd read_handler] in H.
      destruct m as [e| | |ce|ctx|v|fi];
        try (unfold panic in H; apply pair_equal_spec in H as [<- E]; symmetry in E;
             destruct (Hkept ltac:(now rewrite Ek) E) as [A B]; split; [exact A|]; exists Kept;
             split; [eapply ft_hs; [exact Et|exact Ea|discriminate]|exact B]).
      unfold ret in H; apply pair_equal_spec in H as [<- E]; symmetry in E;
             destruct (Hkept ltac:(now rewrite Ek) E) as [A B]; split; [exact A|]; exists Kept;
             split; [apply ft_ticket; [exact Et|eexists; exact Ea]|exact B].
    + destruct H as (-> & Ek & E). destruct (Hkept ltac:(now rewrite Ek) E) as [A B]. split; [exact A|].
      exists Kept. split; [|exact B]. eapply ft_hs_bad; eauto. intros ->.
      apply (nc_read_handshake C tr (pb_new f)). exact Ea.
  - (* ApplicationData *)
    destruct H as (Ek & H). cbn [fst snd] in Ek, H. set (off := rd_decoded s1 - length f) in *.
    assert (Hoff : off + length f <= length (rd_buf s1)) by (unfold rd_wf in Hw; lia).
    assert (Er : r_state (rd_ks s1) = r_state ks) by now rewrite Ek.
    pose proof (decrypt_app C (read_handler (length (rd_buf s1))) h off f s1 (d, op) HC ltac:(rewrite Er; exact Hiv) Hoff) as Hd.
    cbv zeta in Hd. rewrite Er in Hd. set (k := r_state ks) in *.
    destruct (rfc_open C (k_key k) (k_iv k) (k_counter k) h f) as [inner|] eqn:Eo.
    2:{ rewrite Hd in H. apply pair_equal_spec in H as [<- E]. symmetry in E. destruct (Hkept Er E) as [A B]. split; [exact A|].
        exists Kept. split; [now apply ft_forged|exact B]. }
    destruct Hd as [Hlen Hd]. rewrite Hd in H. clear Hd.
    destruct (decrypted_facts s1 off f inner Hoff ltac:(lia)) as (D1 & D2 & D3 & D4 & D5 & D6).
    pose proof (decrypted_pend s1 off f inner ltac:(unfold off; lia) Hw ltac:(lia)) as D7.
    set (s2 := decrypted s1 off f inner) in *. clearbody s2.
    assert (Hsp : same_place s2 s1) by (split; [repeat split; assumption|exact D7]).
    assert (Hkept2 : forall o0 x, (o, (s', (d', op'))) = (o0, (x, (d, op))) -> (x = s2 \/ exists tr, x = with_tr s2 tr) ->
       o0 = o /\ same_place s' s1 /\ effect_on k d op Kept s' d' op').
    { intros o0 x E Hx. apply pair_equal_spec in E as [<- E]. apply pair_equal_spec in E as [-> E]. apply pair_equal_spec in E as [-> ->].
      split; [reflexivity|]. destruct Hx as [-> | [tr0 ->]]; (split; [exact Hsp|]); (split; [|auto]); cbn; rewrite D5; exact Er. }
    destruct (rfc_unpad inner) as [[t c]|] eqn:Eu.
    2:{ symmetry in H. destruct (Hkept2 _ _ H (or_introl eq_refl)) as (E & A & B). split; [exact A|]. exists Kept. split; [|exact B].
        eapply ft_open; [exact Et|exact Eo|]. rewrite <- E. destruct inner; [constructor|]. constructor; [discriminate|exact Eu]. }
    destruct (content_type_of (Byte.to_N t)) as [ct|] eqn:Ect.
    2:{ symmetry in H. destruct (Hkept2 _ _ H (or_introl eq_refl)) as (E & A & B). split; [exact A|]. exists Kept. split; [|exact B].
        eapply ft_open; [exact Et|exact Eo|]. rewrite <- E. eapply if_unknown; eauto. }
    assert (Hin : exists n, inner = rfc_inner t c n).
    { clear - Eu. pose proof (strip_spec inner []) as Hs. cbv zeta in Hs. rewrite Eu in Hs. apply Hs. }
    destruct Hin as [npad Hin].
    destruct ct; unfold dispatch in H.
    + symmetry in H. destruct (Hkept2 _ _ H (or_introl eq_refl)) as (E & A & B). split; [exact A|]. exists Kept. split; [|exact B].
      eapply ft_open; [exact Et|exact Eo|]. rewrite <- E. eapply if_other; eauto.
    + symmetry in H. destruct (Hkept2 _ _ H (or_introl eq_refl)) as (E & A & B). split; [exact A|]. exists Kept. split; [|exact B].
      eapply ft_open; [exact Et|exact Eo|]. rewrite <- E. eapply if_other; eauto.
    + (* alert *)
      pose proof (safe_alert (pb_new c)) as Hsafe. pose proof (nc_parse_alert (pb_new c)) as Hnc.
      unfold bind at 1 in H. unfold bind at 1, lift at 1 in H.
      destruct (parse_alert (pb_new c)) as [[[l ds]|e|x| |] p'] eqn:Ea; cbn [fst] in H; try (exfalso; apply Hsafe; unfold pwf, pb_new; cbn; lia).
      * unfold call_cb in H. cbn [fst snd read_handler] in H.
        destruct (alert_desc_eq_dec ds AD_CloseNotify) as [->|Hne].
        -- unfold bind, modify, fail in H. cbn [fst snd] in H. apply pair_equal_spec in H as [<- E].
           apply pair_equal_spec in E as [<- E]. apply pair_equal_spec in E as [<- <-].
           split; [exact Hsp|]. exists Shut. split; [|cbn; rewrite D5; auto].
           eapply ft_open; [exact Et|exact Eo|]. eapply if_close; eauto. rewrite Ea. reflexivity.
        -- assert (H' : (Err InternalError, (s2, (d, op))) = (o, (s', (d', op')))) by (destruct ds; try exact H; contradiction).
           symmetry in H'. destruct (Hkept2 _ _ H' (or_introl eq_refl)) as (E & A & B). split; [exact A|]. exists Kept. split; [|exact B].
           eapply ft_open; [exact Et|exact Eo|]. rewrite <- E. eapply if_alert; eauto. rewrite Ea. reflexivity.
      * symmetry in H. destruct (Hkept2 _ _ H (or_introl eq_refl)) as (E & A & B). split; [exact A|]. exists Kept. split; [|exact B].
        eapply ft_open; [exact Et|exact Eo|]. rewrite <- E. eapply if_alert_bad; eauto; [rewrite Ea; reflexivity|].
        intros ->. now apply Hnc.
    + (* handshake *)
      unfold bind at 1 in H.
      destruct (handshake_loop C (read_handler (length (rd_buf s1))) (S (length c)) (pb_new c) (s2, (d, op))) as [o1 st1] eqn:El.
      apply hs_loop_read in El; [|unfold pwf, pb_new; cbn; lia|cbn; lia].
      destruct El as (s3 & -> & Hs3 & Hpass & Ho1). rewrite D5, Ek in Hpass. cbn [r_transcript r_with_transcript] in Hpass. symmetry in Hpass.
      assert (E3 : r_state (rd_ks s3) = k /\ same_place s3 s1).
      { destruct Hs3 as [-> | [tr0 ->]]; (split; [cbn; rewrite D5; exact Er|exact Hsp]). }
      destruct E3 as [E3 Hsp3].
      destruct o1 as [u|e|x| |]; try contradiction.
      * rewrite increment_spec in H. rewrite E3 in H.
        destruct (N.ltb_spec (k_counter k) u64_max) as [Hc|Hc].
        -- apply pair_equal_spec in H as [<- E]. apply pair_equal_spec in E as [<- E]. apply pair_equal_spec in E as [<- <-].
           split; [exact Hsp3|]. exists Counted. split; [|repeat split].
           eapply ft_open; [exact Et|exact Eo|]. destruct u; eapply if_tickets; eauto.
        -- apply pair_equal_spec in H as [<- E]. apply pair_equal_spec in E as [<- E]. apply pair_equal_spec in E as [<- <-].
           split; [exact Hsp3|]. exists Dead. split; [|split; auto].
           eapply ft_open; [exact Et|exact Eo|]. destruct u; eapply if_last; eauto.
      * symmetry in H. destruct (Hkept2 _ _ H Hs3) as (E & A & B). split; [exact A|]. exists Kept. split; [|exact B].
        eapply ft_open; [exact Et|exact Eo|]. rewrite <- E. eapply if_hs_bad; eauto.
      * subst x. symmetry in H. destruct (Hkept2 _ _ H Hs3) as (E & A & B). split; [exact A|]. exists Kept. split; [|exact B].
        eapply ft_open; [exact Et|exact Eo|]. rewrite <- E. eapply if_hs; eauto.
    + (* application data *)
      assert (Hcl : length inner = length c + 1 + npad) by (rewrite Hin; apply rfc_inner_length).
      pose proof (ok_tag_len C HC) as Htag.
      unfold bind at 1 in H. unfold call_cb in H. cbn [fst snd read_handler] in H.
      unfold bind at 1, lift at 1 in H.
      assert (Hsl : cb_as_slice (E:=tls_error) (mk_cbuf (splice f 0 inner) 0 (length c)) = Ok c).
      { unfold cb_as_slice. cbn [cb_buf cb_off cb_len]. rewrite slice_rng_ok by (rewrite ?splice_length; lia). f_equal.
        unfold sub. cbn [skipn Nat.add]. rewrite Nat.sub_0_r. change (splice f 0 inner) with (inner ++ skipn (length inner) f).
        rewrite Hin. unfold rfc_inner. rewrite <- !app_assoc. now apply firstn_app_exact. }
      rewrite Hsl in H. cbn [cb_off] in H. rewrite Nat.add_0_r in H.
      assert (Hb : (off <? length (rd_buf s1)) && (off + length c <? length (rd_buf s1)) = true).
      { apply andb_true_iff. split; apply Nat.ltb_lt; lia. }
      rewrite Hb in H. unfold modify in H. cbn [fst snd] in H. rewrite increment_spec in H. rewrite D5, Er in H.
      destruct (N.ltb_spec (k_counter k) u64_max) as [Hc|Hc].
      * apply pair_equal_spec in H as [<- E]. apply pair_equal_spec in E as [<- E]. apply pair_equal_spec in E as [<- <-].
        split; [exact Hsp|]. exists (Window c). split.
        -- eapply ft_open; [exact Et|exact Eo|]. eapply if_data; eauto.
        -- cbn [effect_on]. split; [reflexivity|]. split; [reflexivity|]. split; [reflexivity|]. split; [reflexivity|]. split.
           ++ split; cbn [d_consumed d_len d_offset rd_buf]; lia.
           ++ unfold unread_of. cbn [d_consumed d_len d_offset rd_buf]. rewrite Nat.add_0_r, Nat.sub_0_r.
              eapply D6. rewrite Hin. unfold rfc_inner. reflexivity.
      * apply pair_equal_spec in H as [<- E]. apply pair_equal_spec in E as [<- E]. apply pair_equal_spec in E as [<- <-].
        split; [exact Hsp|]. exists Dead. split; [|split; [rewrite D5; auto|reflexivity]].
        eapply ft_open; [exact Et|exact Eo|]. eapply if_last; eauto.
Qed.

(** ** Reading one record *)

(** [W] is the whole byte stream; the reader has taken part of it. *)
Definition tracked (W : bytes) (s : rdst) : Prop :=
  exists hist, W = hist ++ stream (rd_rx s) /\ subseq (pend s) hist.

Lemma tracked_place W a b : same_place a b -> tracked W b -> tracked W a.
Proof. intros [(_ & _ & E & _) E2] (hist & H1 & H2). exists hist. rewrite E, E2. auto. Qed.

Lemma tracked_failed W s s' used : stream (rd_rx s) = used ++ stream (rd_rx s') -> subseq (pend s') (pend s ++ used) ->
  tracked W s -> tracked W s'.
Proof.
  intros H1 H2 (hist & H3 & H4). exists (hist ++ used). split; [rewrite H3, H1; apply app_assoc|].
  eapply subseq_trans; [exact H2|]. apply subseq_app; [exact H4|apply subseq_refl].
Qed.

Lemma tracked_complete W s s' h f x : stream (rd_rx s) = h ++ x ++ stream (rd_rx s') -> pend s ++ x = f ++ pend s' ->
  tracked W s -> tracked W s' /\ received_in W h f.
Proof.
  intros H1 H2 (hist & H3 & H4). split.
  - exists (hist ++ h ++ x). split; [rewrite H3, H1, <- !app_assoc; reflexivity|].
    eapply subseq_trans; [apply (subseq_right (pend s') f)|]. rewrite <- H2.
    apply subseq_app; [exact H4|apply subseq_right].
  - rewrite H1 in H3. destruct (app_eq_app _ _ _ _ H2) as (z & [[E1 E2]|[E1 E2]]).
    + exists hist, [], (x ++ stream (rd_rx s')), f. split; [exact H3|]. split; [now rewrite app_nil_r|].
      eapply subseq_trans; [apply (subseq_left f z)|]. rewrite <- E1. exact H4.
    + exists hist, z, (pend s' ++ stream (rd_rx s')), (pend s). split; [rewrite H3, E2, <- !app_assoc; reflexivity|]. auto.
Qed.

Lemma rad_any C s d op o s' d' op' : crypto_ok C -> length (k_iv (r_state (rd_ks s))) = iv_len C -> rd_wf s ->
  read_application_data C (s, (d, op)) = (o, (s', (d', op'))) ->
  rd_wf s' /\ length (rd_buf s') = length (rd_buf s) /\ rx_size (rd_rx s') <= rx_size (rd_rx s) /\
  (forall W, tracked W s -> tracked W s') /\
  (framing_failure (rd_pending s) o /\ rd_ks s' = rd_ks s /\ d' = d /\ op' = op \/
   exists h f e, framed h f /\ known_type h /\ (rd_pending s = 0 -> rd_pending s' = 0) /\
     rx_size (rd_rx s') + 5 <= rx_size (rd_rx s) /\ (forall W, tracked W s -> received_in W h f) /\
     fate C (r_state (rd_ks s)) (r_transcript (rd_ks s)) h f o e /\ effect_on (r_state (rd_ks s)) d op e s' d' op').
Proof.
  intros HC Hiv Hw H. unfold read_application_data in H. unfold bind at 1, on_fst at 1 in H. cbn [fst snd] in H.
  destruct (rd_read C s) as [o1 s1] eqn:Er. pose proof (rd_read_any C s o1 s1 Hw Er) as (Hw1 & Hl1 & Hx1 & Hor).
  destruct Hor as [(Hff & Hks & used & Hu1 & Hu2)|(h & f & Hc & Hd)].
  - destruct o1 as [rec|e|x| |]; try contradiction;
      apply pair_equal_spec in H as [<- E]; apply pair_equal_spec in E as [<- E]; apply pair_equal_spec in E as [<- <-];
      (split; [exact Hw1|split; [exact Hl1|split; [exact Hx1|split; [intros W; exact (tracked_failed W s s1 used Hu1 Hu2)|left; auto]]]]).
  - destruct Hc as (Hkt & Hfr & Hfl & Hsub & Hpend & Hx & x & Hst1 & Hst2).
    assert (G : same_place s' s1 /\ exists e, fate C (r_state (rd_ks s)) (r_transcript (rd_ks s)) h f o e /\ effect_on (r_state (rd_ks s)) d op e s' d' op').
    { apply (handle_record C s1 (r_transcript (rd_ks s)) (rd_ks s) h f d op o s' d' op' HC Hiv (proj1 Hfr) Hkt (framed_length h f Hfr) Hw1 Hfl Hsub).
      destruct (sr_decode C h (rd_decoded s1 - length f) f (r_transcript (rd_ks s))) as [rt|e|y| |]; try contradiction.
      - destruct Hd as [-> Hks]. split; [exact Hks|]. exact H.
      - destruct Hd as [-> Hks]. apply pair_equal_spec in H as [<- E]. split; [reflexivity|]. split; [exact Hks|]. now symmetry. }
    destruct G as (Hpl & e & Hf & He). pose proof Hpl as ((P1 & P2 & P3 & P4) & P5).
    split; [unfold rd_wf in *; rewrite P1, P2, P4; exact Hw1|]. split; [congruence|]. split; [rewrite P3; exact Hx1|].
    split; [intros W HW; eapply tracked_place; [exact Hpl|]; exact (proj1 (tracked_complete W s s1 h f x Hst1 Hst2 HW))|].
    right. exists h, f, e. rewrite P2, P3. split; [exact Hfr|]. split; [exact Hkt|]. split; [exact Hpend|]. split; [exact Hx|].
    split; [intros W HW; exact (proj2 (tracked_complete W s s1 h f x Hst1 Hst2 HW))|]. auto.
Qed.

(** ** The loop over records *)

Definition rinv C W (s : rdst) (d : dec_info) : Prop :=
  rd_wf s /\ length (k_iv (r_state (rd_ks s))) = iv_len C /\ dec_ok s d /\ tracked W s.

Definition kadv (k : kstate) (n : N) : kstate := mk_kstate (k_traffic k) (k_counter k + n) (k_key k) (k_iv k).
Lemma kadv_0 k : kadv k 0 = k. Proof. destruct k. unfold kadv. cbn. now rewrite N.add_0_r. Qed.

Lemma unread_nil C W s d : rinv C W s d -> (unread_of s d = [] <-> d_len d = d_consumed d).
Proof.
  intros (_ & _ & [H1 H2] & _). unfold unread_of. split; intros H.
  - apply (f_equal (@length byte)) in H. rewrite sub_length in H. cbn [length] in H. lia.
  - rewrite H, Nat.sub_diag. reflexivity.
Qed.

Lemma dec_empty_spec C W s d : rinv C W s d ->
  dec_is_empty d = Ok (match unread_of s d with [] => true | _ => false end).
Proof.
  intros Hr. pose proof (unread_nil C W s d Hr) as Hu. destruct Hr as (_ & _ & [H1 H2] & _).
  unfold dec_is_empty, dec_remaining. rewrite usize_sub_ok by exact H1. cbn [obind]. f_equal.
  destruct (unread_of s d); [apply Nat.eqb_eq|apply Nat.eqb_neq].
  - assert (d_len d = d_consumed d) by now apply Hu. lia.
  - intros E. assert (d_len d = d_consumed d) as E2 by lia. apply Hu in E2. discriminate.
Qed.

Lemma content_type_data t : content_type_of (Byte.to_N t) = Some CT_ApplicationData -> t = ty_data.
Proof. destruct t; try discriminate. reflexivity. Qed.
Lemma content_type_hs t : content_type_of (Byte.to_N t) = Some CT_Handshake -> t = ty_handshake.
Proof. destruct t; try discriminate. reflexivity. Qed.
Lemma content_type_alert t : content_type_of (Byte.to_N t) = Some CT_Alert -> t = ty_alert.
Proof. destruct t; try discriminate. reflexivity. Qed.

(** Why a receiving call may panic: a record that crashes the client, or an earlier read that
    was interrupted in the middle of a record. *)
Definition panics C W (s : rdst) (x : panic_site) : Prop :=
  let k := r_state (rd_ks s) in
  exists l, opens C W (k_key k) (k_iv k) (k_counter k) l /\
    ((x = PSlice \/ x = PArith) /\ rd_pending s <> 0 \/
     exists h f, framed h f /\ received_in W h f /\ crashes C (k_key k) (k_iv k) (k_counter k + N.of_nat (length l)) h f x).

(** Why a session may end. *)
Definition ended C W (k : kstate) (l : list (byte * bytes)) : Prop :=
  exists h f, framed h f /\ received_in W h f /\
    (plain_close h f \/ authentic_close C (k_key k) (k_iv k) (k_counter k + N.of_nat (length l)) h f).

Definition filled C W (s : rdst) (d : dec_info) (op : bool) (o : outcome tls_error unit) (s' : rdst) (d' : dec_info) (op' : bool) : Prop :=
  match o with
  | Diverge => False
  | Panic x => unread_of s d = [] /\ panics C W s x
  | _ =>
      let k := r_state (rd_ks s) in
      exists l, opens C W (k_key k) (k_iv k) (k_counter k) l /\
        r_state (rd_ks s') = kadv k (N.of_nat (length l)) /\
        rinv C W s' d' /\ length (rd_buf s') = length (rd_buf s) /\ rx_size (rd_rx s') <= rx_size (rd_rx s) /\
        unread_of s' d' = unread_of s d ++ concat (data_of l) /\
        (unread_of s d <> [] -> l = [] /\ s' = s /\ d' = d /\ o = Ok tt) /\
        (op' = op \/ op' = false /\ o = Err ConnectionClosed /\ ended C W k l) /\
        (o = Ok tt -> unread_of s' d' <> []) /\ (o <> Ok tt -> unread_of s' d' = [])
  end.

Lemma data_of_hs c l : data_of ((ty_handshake, c) :: l) = data_of l. Proof. reflexivity. Qed.
Lemma data_of_data c l : data_of ((ty_data, c) :: l) = c :: data_of l. Proof. reflexivity. Qed.

Lemma fill_any C W : crypto_ok C -> forall fuel s d op o s' d' op',
  rinv C W s d -> rx_size (rd_rx s) < fuel ->
  fill_loop C fuel (s, (d, op)) = (o, (s', (d', op'))) -> filled C W s d op o s' d' op'.
Proof.
  intros HC. induction fuel as [|fuel IH]; intros s d op o s' d' op' Hr Hf H; [lia|].
  cbn [fill_loop] in H. unfold bind at 1, get at 1 in H. unfold bind at 1, lift at 1 in H. cbn [fst snd] in H.
  rewrite (dec_empty_spec C W s d Hr) in H.
  destruct (unread_of s d) as [|b0 u0] eqn:Eu; cbn [negb] in H.
  2:{ unfold ret in H. apply pair_equal_spec in H as [<- E]. apply pair_equal_spec in E as [<- E]. apply pair_equal_spec in E as [<- <-].
      cbn [filled]. exists []. rewrite N.add_0_r at 1 || idtac. cbn [length data_of filter map concat]. rewrite kadv_0, app_nil_r.
      split; [constructor|]. split; [reflexivity|]. split; [exact Hr|]. split; [reflexivity|]. split; [lia|]. split; [reflexivity|].
      split; [auto|]. split; [auto|]. split; [intros _; rewrite Eu; discriminate|]. intros E; congruence. }
  unfold bind at 1 in H. destruct (read_application_data C (s, (d, op))) as [o1 [s1 [d1 op1]]] eqn:E1.
  destruct Hr as (Hw & Hiv & Hdok & Htr).
  destruct (rad_any C s d op o1 s1 d1 op1 HC Hiv Hw E1) as (Hw1 & Hl1 & Hx1 & Htr1 & Hor). specialize (Htr1 W Htr).
  set (k := r_state (rd_ks s)) in *.
  (* a call that stops here, having changed nothing *)
  assert (Hstop : forall oo, oo <> Ok tt -> oo = o -> (s1, (d1, op1)) = (s', (d', op')) -> r_state (rd_ks s1) = k -> d1 = d ->
     (op1 = op \/ op1 = false /\ oo = Err ConnectionClosed /\ ended C W k []) ->
     match oo with Diverge | Panic _ => False | _ => True end -> filled C W s d op o s' d' op').
  { intros oo Hno <- E Ek -> Hop Hc. apply pair_equal_spec in E as [<- E]. apply pair_equal_spec in E as [<- <-].
    assert (Hr1 : rinv C W s1 d) by (split; [exact Hw1|]; split; [rewrite Ek; exact Hiv|]; split; [destruct Hdok; split; [assumption|rewrite Hl1; assumption]|exact Htr1]).
    assert (Eu1 : unread_of s1 d = []).
    { apply (unread_nil C W s1 d Hr1). apply (unread_nil C W s d); [split; auto|exact Eu]. }
    destruct oo as [[]|e|x| |]; try contradiction; try (now destruct Hno);
      (exists []; cbn [length data_of filter map concat]; rewrite kadv_0, app_nil_r, Eu1, Eu;
       split; [constructor|]; split; [exact Ek|]; split; [exact Hr1|]; split; [exact Hl1|]; split; [exact Hx1|]; split; [reflexivity|];
       split; [congruence|]; split; [exact Hop|]; split; [congruence|reflexivity]). }
  (* a record was accepted; the loop goes on *)
  assert (Hgo : forall l1 : list (byte * bytes), o1 = Ok tt -> length l1 <= 1 -> opens C W (k_key k) (k_iv k) (k_counter k) l1 ->
     r_state (rd_ks s1) = kadv k (N.of_nat (length l1)) -> op1 = op -> dec_ok s1 d1 -> unread_of s1 d1 = concat (data_of l1) ->
     rx_size (rd_rx s1) + 5 <= rx_size (rd_rx s) -> (rd_pending s = 0 -> rd_pending s1 = 0) ->
     filled C W s d op o s' d' op').
  { intros l1 -> Hll Hop1 Hk1 -> Hdok1 Hu1 Hx5 Hpend.
    assert (Hr1 : rinv C W s1 d1) by (split; [exact Hw1|]; split; [rewrite Hk1; exact Hiv|]; split; [exact Hdok1|exact Htr1]).
    specialize (IH s1 d1 op o s' d' op' Hr1 ltac:(lia) H).
    unfold filled in *. rewrite Hk1 in IH. cbn [k_key k_iv k_counter kadv] in IH. fold k.
    assert (Hgen : (exists l, opens C W (k_key k) (k_iv k) (k_counter k + N.of_nat (length l1)) l /\
        r_state (rd_ks s') = kadv (kadv k (N.of_nat (length l1))) (N.of_nat (length l)) /\
        rinv C W s' d' /\ length (rd_buf s') = length (rd_buf s1) /\ rx_size (rd_rx s') <= rx_size (rd_rx s1) /\
        unread_of s' d' = unread_of s1 d1 ++ concat (data_of l) /\
        (unread_of s1 d1 <> [] -> l = [] /\ s' = s1 /\ d' = d1 /\ o = Ok tt) /\
        (op' = op \/ op' = false /\ o = Err ConnectionClosed /\ ended C W (kadv k (N.of_nat (length l1))) l) /\
        (o = Ok tt -> unread_of s' d' <> []) /\ (o <> Ok tt -> unread_of s' d' = [])) ->
      exists l, opens C W (k_key k) (k_iv k) (k_counter k) l /\
        r_state (rd_ks s') = kadv k (N.of_nat (length l)) /\
        rinv C W s' d' /\ length (rd_buf s') = length (rd_buf s) /\ rx_size (rd_rx s') <= rx_size (rd_rx s) /\
        unread_of s' d' = unread_of s d ++ concat (data_of l) /\
        (unread_of s d <> [] -> l = [] /\ s' = s /\ d' = d /\ o = Ok tt) /\
        (op' = op \/ op' = false /\ o = Err ConnectionClosed /\ ended C W k l) /\
        (o = Ok tt -> unread_of s' d' <> []) /\ (o <> Ok tt -> unread_of s' d' = [])).
    { intros (l & L1 & L2 & L3 & L4 & L5 & L6 & _ & L8 & L9 & L10). exists (l1 ++ l).
      split. { destruct l1 as [|tc [|? ?]]; [|inversion Hop1; subst|cbn in Hll; lia].
               - cbn [length N.of_nat] in L1. rewrite N.add_0_r in L1. exact L1.
               - cbn [app]. econstructor; eauto. }
      split. { rewrite L2, app_length. unfold kadv. cbn. f_equal. lia. }
      split; [exact L3|]. split; [congruence|]. split; [lia|].
      split. { rewrite L6, Hu1, Eu. unfold data_of. rewrite filter_app, map_app, concat_app. reflexivity. }
      split; [congruence|]. split; [|auto]. destruct L8 as [L8|(L8 & L8' & hh & ff & E1' & E2' & E3')]; [auto|right].
      split; [exact L8|]. split; [exact L8'|]. exists hh, ff. split; [exact E1'|]. split; [exact E2'|].
      cbn [kadv k_key k_iv k_counter] in E3'. rewrite app_length. now rewrite Nat2N.inj_add, N.add_assoc. }
    destruct o as [[]|e|x| |]; try exact (Hgen IH); [|contradiction].
    destruct IH as (_ & l & I1 & I2). split; [exact Eu|]. rewrite Hk1 in I1, I2. cbn [kadv k_key k_iv k_counter] in I1, I2.
    exists (l1 ++ l). fold k. split.
    { destruct l1 as [|tc [|? ?]]; [|inversion Hop1; subst|cbn in Hll; lia].
      - cbn [length N.of_nat] in I1. rewrite N.add_0_r in I1. exact I1.
      - cbn [app]. econstructor; eauto. }
    rewrite app_length, Nat2N.inj_add, N.add_assoc. destruct I2 as [[I2 I3]|I2]; [left; split; [exact I2|intros E; now apply I3, Hpend]|right; exact I2]. }
  destruct Hor as [(Hff & Hks & -> & ->)|(h & f & e & Hfr & Hkt & Hpend & Hx5 & Hrec & Hfate & Heff)].
  { destruct o1 as [[]|e|x| |]; try contradiction.
    - apply pair_equal_spec in H as [<- H]. apply (Hstop (Err e)); auto; [discriminate|now rewrite Hks].
    - apply pair_equal_spec in H as [<- H]. cbn [filled]. split; [exact Eu|]. exists []. split; [constructor|]. left. exact Hff.
    - apply pair_equal_spec in H as [<- H]. apply (Hstop Cancelled); auto; [discriminate|now rewrite Hks]. }
  assert (Herr : forall e0, o1 = Err e0 -> e = Kept -> filled C W s d op o s' d' op').
  { intros e0 -> ->. destruct Heff as (A & B & D). apply pair_equal_spec in H as [<- H]. apply (Hstop (Err e0)); auto. discriminate. }
  assert (Hpan : forall x, o1 = Panic x -> crashes C (k_key k) (k_iv k) (k_counter k) h f x -> filled C W s d op o s' d' op').
  { intros x -> Hx. apply pair_equal_spec in H as [<- H]. cbn [filled]. split; [exact Eu|]. exists []. split; [constructor|]. right.
    exists h, f. cbn [length N.of_nat]. rewrite N.add_0_r. auto. }
  assert (Hty : forall ct, hdr_content_type h = Ok ct -> exists t, hd_error h = Some t /\ content_type_of (Byte.to_N t) = Some ct).
  { intros ct Hct. destruct h as [|t h']; [discriminate|]. exists t. split; [reflexivity|]. unfold hdr_content_type, index in Hct.
    cbn [nth_error obind] in Hct. destruct (content_type_of (Byte.to_N t)); inversion Hct. reflexivity. }
  assert (Hdok1 : d1 = d -> dec_ok s1 d1) by (intros ->; destruct Hdok; split; [assumption|rewrite Hl1; assumption]).
  assert (Hu1 : d1 = d -> unread_of s1 d1 = []).
  { intros ->. assert (E : d_len d = d_consumed d) by (apply (unread_nil C W s d); [split; auto|exact Eu]).
    unfold unread_of. now rewrite E, Nat.sub_diag. }
  inversion Hfate; subst; try (eapply Herr; reflexivity).
  - (* plaintext close_notify *) destruct Heff as (A & B & D). apply pair_equal_spec in H as [<- H].
    apply (Hstop (Err ConnectionClosed)); auto; try discriminate. right. split; [exact D|]. split; [reflexivity|].
    exists h, f. split; [exact Hfr|]. split; [exact (Hrec W Htr)|]. left. split; [|eapply parse_close; eassumption].
    destruct (Hty _ ltac:(eassumption)) as (t & Ht & Hct). apply content_type_alert in Hct. now subst t.
  - (* plaintext ticket *) destruct Heff as (A & B & D). apply (Hgo []); auto; [constructor|now rewrite kadv_0].
  - (* another handshake message in the clear *) eapply Hpan; [reflexivity|]. left.
    destruct (Hty _ ltac:(eassumption)) as (t & Ht & Hct). apply content_type_hs in Hct. subst t. split; [exact Ht|]. split; [|reflexivity].
    intros Hn. destruct (is_nst_ticket C (r_transcript (rd_ks s)) f Hn) as [tr1 E]. congruence.
  - (* an authentic record *)
    match goal with H : inner_fate _ _ _ _ _ _ |- _ => rename H into Hif end.
    match goal with H : rfc_open _ _ _ _ _ _ = _ |- _ => rename H into Hopen end.
    inversion Hif; subst; try (eapply Herr; reflexivity).
    + (* empty *) eapply Hpan; [reflexivity|]. right. exists []. auto.
    + (* data *) destruct Heff as (A & B & D1 & D2 & D3 & D4).
      match goal with H : content_type_of _ = _ |- _ => apply content_type_data in H; subst t end.
      apply (Hgo [(ty_data, c)]); auto.
      * econstructor; [exact Hfr|exact (Hrec W Htr)|exact Hopen|eassumption|constructor].
      * rewrite data_of_data. cbn [concat data_of filter map]. rewrite app_nil_r. exact D4.
    + (* tickets *) destruct Heff as (A & B & D).
      match goal with H : content_type_of _ = _ |- _ => apply content_type_hs in H; subst t end.
      apply (Hgo [(ty_handshake, c)]); auto.
      * econstructor; [exact Hfr|exact (Hrec W Htr)|exact Hopen|eassumption|constructor].
    + (* other handshake messages *) eapply Hpan; [reflexivity|]. right. exists inner. split; [exact Hopen|]. right. right. split; [|reflexivity].
      match goal with H : content_type_of _ = _ |- _ => apply content_type_hs in H; subst t end.
      exists c. split; [assumption|]. intros (ms & Hms & Hall).
      pose proof (hs_pass_tickets C c ms (r_transcript (rd_ks s)) Hms Hall). congruence.
    + (* close_notify *) destruct Heff as (A & B & D). apply pair_equal_spec in H as [<- H].
      match goal with H : content_type_of _ = _ |- _ => apply content_type_alert in H; subst t end.
      apply (Hstop (Err ConnectionClosed)); auto; try discriminate. right. split; [exact D|]. split; [reflexivity|].
      exists h, f. split; [exact Hfr|]. split; [exact (Hrec W Htr)|]. right. exists inner, c. cbn [length N.of_nat]. rewrite N.add_0_r.
      split; [exact Hopen|]. split; [assumption|]. eapply parse_close; eassumption.
    + (* the last sequence number *) eapply Hpan; [reflexivity|]. right. exists inner. auto.
Qed.

(** ** The handle *)

Lemma rb_len_ok data n u : n <= length data -> rb_len (mk_rbuf data n u) = Ok (length data - n).
Proof. intros H. unfold rb_len. cbn [rb_data rb_consumed]. now rewrite usize_sub_ok. Qed.

Lemma sub_firstn_skipn {A} (l : list A) n k : sub l n k = firstn k (skipn n l).
Proof. reflexivity. Qed.

Lemma firstn_min {A} (l : list A) n : firstn (Nat.min (length l) n) l = firstn n l.
Proof.
  destruct (Nat.le_ge_cases (length l) n) as [H|H].
  - rewrite Nat.min_l, firstn_all by lia. now rewrite firstn_all2.
  - now rewrite Nat.min_r by lia.
Qed.

Lemma peek_spec data n u k : n <= length data ->
  rb_peek k (mk_rbuf data n u) = Ok (firstn k (skipn n data), mk_rbuf data n true).
Proof.
  intros H. unfold rb_peek. rewrite rb_len_ok by exact H. cbn [obind rb_data rb_consumed].
  rewrite slice_rng_ok by lia. cbn [obind]. f_equal. f_equal. unfold sub.
  replace (n + Nat.min (length data - n) k - n) with (Nat.min (length (skipn n data)) k) by (rewrite skipn_length; lia).
  apply firstn_min.
Qed.

Lemma pop_spec data n u k : n <= length data ->
  rb_pop k (mk_rbuf data n u) = Ok (firstn k (skipn n data), mk_rbuf data (n + Nat.min (length data - n) k) true).
Proof.
  intros H. unfold rb_pop. rewrite rb_len_ok by exact H. cbn [obind rb_data rb_consumed].
  rewrite slice_rng_ok by lia. cbn [obind]. f_equal. f_equal. unfold sub.
  replace (n + Nat.min (length data - n) k - n) with (Nat.min (length (skipn n data)) k) by (rewrite skipn_length; lia).
  apply firstn_min.
Qed.

Lemma skipn_min {A} (l : list A) n k : skipn (n + Nat.min (length l - n) k) l = skipn k (skipn n l).
Proof.
  rewrite skipn_skipn. destruct (Nat.le_ge_cases (length l - n) k) as [H|H].
  - rewrite Nat.min_l by lia. rewrite !skipn_all2 by lia. reflexivity.
  - rewrite Nat.min_r by lia. f_equal. lia.
Qed.

Lemma pop_into_spec data n u buf : n <= length data ->
  rb_pop_into buf (mk_rbuf data n u) =
    let m := Nat.min (length buf) (length data - n) in
    Ok (firstn m (skipn n data) ++ skipn m buf, m, mk_rbuf data (n + m) true).
Proof.
  intros H. unfold rb_pop_into. rewrite pop_spec by exact H. cbn [obind fst snd].
  assert (L : length (firstn (length buf) (skipn n data)) = Nat.min (length buf) (length data - n)).
  { rewrite firstn_length, skipn_length. reflexivity. }
  rewrite set_rng_ok by (rewrite L; lia). cbn [obind]. cbv zeta.
  assert (E : firstn (length buf) (skipn n data) = firstn (Nat.min (length buf) (length data - n)) (skipn n data)).
  { rewrite <- (firstn_min (skipn n data) (length buf)), skipn_length. f_equal. lia. }
  f_equal. f_equal; [f_equal|f_equal; lia]; [|exact L].
  unfold splice. rewrite L. cbn [firstn Nat.add app]. now rewrite E.
Qed.

Definition hstep (o : rb_op) (q : bytes) : bytes * bytes :=
  match o with
  | RbPeek n => (firstn n q, q)
  | RbPeekAll => (q, q)
  | RbPop n => (firstn n q, skipn n q)
  | RbPopAll => (q, [])
  | RbPopInto n => (firstn n q, skipn n q)
  end.

Lemma handle_cons o ops q :
  handle (o :: ops) q = (fst (hstep o q) :: fst (handle ops (snd (hstep o q))), snd (handle ops (snd (hstep o q)))).
Proof. cbn [handle]. fold (hstep o q). destruct (hstep o q) as [a b]. cbn [fst snd]. now destruct (handle ops b). Qed.

Lemma rb_step_spec data o n u : n <= length data -> exists n',
  rb_step o (mk_rbuf data n u) = Ok (fst (hstep o (skipn n data)), mk_rbuf data n' true) /\
  n <= n' <= length data /\ snd (hstep o (skipn n data)) = skipn n' data.
Proof.
  intros Hn. destruct o as [k| |k| |k]; cbn [rb_step hstep fst snd].
  - exists n. rewrite peek_spec by exact Hn. auto.
  - exists n. unfold rb_peek_all. rewrite rb_len_ok by exact Hn. cbn [obind]. rewrite peek_spec by exact Hn.
    rewrite <- skipn_length, firstn_all. auto.
  - exists (n + Nat.min (length data - n) k). rewrite pop_spec by exact Hn. rewrite skipn_min. repeat split; lia.
  - exists (length data). unfold rb_pop_all. rewrite rb_len_ok by exact Hn. cbn [obind]. rewrite pop_spec by exact Hn.
    rewrite <- skipn_length, firstn_all. rewrite skipn_all, skipn_length.
    replace (n + _) with (length data) by lia. repeat split; lia.
  - exists (n + Nat.min (length data - n) k). rewrite pop_into_spec by exact Hn. cbn [obind]. cbv zeta.
    unfold zeros. rewrite repeat_length. rewrite skipn_min.
    assert (E : firstn (Nat.min k (length data - n)) (skipn n data) = firstn k (skipn n data)).
    { rewrite <- (firstn_min (skipn n data) k), skipn_length. f_equal. lia. }
    rewrite firstn_app_exact.
    + rewrite E, (Nat.min_comm k). repeat split; lia.
    + rewrite firstn_length, skipn_length. lia.
Qed.

Lemma rb_run_spec data : forall ops n u, n <= length data -> exists n',
  rb_run ops (mk_rbuf data n u) = Ok (fst (handle ops (skipn n data)), mk_rbuf data n' (match ops with [] => u | _ => true end)) /\
  n <= n' <= length data /\ snd (handle ops (skipn n data)) = skipn n' data.
Proof.
  induction ops as [|o ops IH]; intros n u Hn.
  - exists n. cbn. repeat split; auto.
  - destruct (rb_step_spec data o n u Hn) as (n1 & E1 & H1 & E2).
    destruct (IH n1 true ltac:(lia)) as (n2 & E3 & H2 & E4). exists n2.
    cbn [rb_run]. rewrite E1. cbn [obind fst snd]. rewrite E3. cbn [obind fst snd]. rewrite handle_cons, E2. cbn [fst snd].
    split; [|split; [lia|exact E4]]. destruct ops; reflexivity.
Qed.

Lemma create_spec C W s d : rinv C W s d -> create_read_buffer d (rd_buf s) = Ok (rb_new (unread_of s d)).
Proof.
  intros (_ & _ & [H1 H2] & _). unfold create_read_buffer. rewrite slice_rng_ok by lia. cbn [obind]. f_equal. f_equal.
  unfold unread_of. f_equal. lia.
Qed.

(** [n] more bytes of the window are consumed. *)
Definition dec_skip (d : dec_info) (n : nat) : dec_info := mk_dec (d_offset d) (d_len d) (d_consumed d + n).

Lemma sub_skip {A} (l : list A) a n k : skipn k (sub l a n) = sub l (a + k) (n - k).
Proof. unfold sub. rewrite skipn_firstn_comm, skipn_skipn. f_equal. f_equal. lia. Qed.

Lemma skip_spec C W s d n : rinv C W s d -> n <= length (unread_of s d) ->
  rinv C W s (dec_skip d n) /\ unread_of s (dec_skip d n) = skipn n (unread_of s d).
Proof.
  intros (H1 & H2 & [H3 H4] & H5) Hn. unfold unread_of in *. rewrite sub_length in Hn.
  split.
  - split; [exact H1|]. split; [exact H2|]. split; [|exact H5]. unfold dec_skip. split; cbn [d_consumed d_len d_offset]; lia.
  - unfold dec_skip. cbn [d_consumed d_len d_offset]. rewrite sub_skip. f_equal; lia.
Qed.

Lemma rh_buffered_any C W s d op o s' d' op' : crypto_ok C -> rinv C W s d ->
  rh_read_buffered C (s, (d, op)) = (o, (s', (d', op'))) ->
  if op then filled C W s d op (omap (fun _ => tt) o) s' d' op' /\ (forall r, o = Ok r -> r = rb_new (unread_of s' d'))
  else o = Err MissingHandshake /\ s' = s /\ d' = d /\ op' = op.
Proof.
  intros HC Hr H. unfold rh_read_buffered in H. unfold bind at 1, get at 1 in H. destruct op.
  2:{ unfold fail in H. apply pair_equal_spec in H as [<- E]. apply pair_equal_spec in E as [<- E]. apply pair_equal_spec in E as [<- <-]. auto. }
  unfold bind at 1 in H. cbn [fst] in H.
  destruct (fill_loop C (S (rx_size (rd_rx s))) (s, (d, true))) as [o1 [s1 [d1 op1]]] eqn:E1.
  apply (fill_any C W HC) in E1; [|exact Hr|lia].
  destruct o1 as [[]|e|x| |].
  - unfold bind at 1, get at 1 in H. unfold lift in H. cbn [fst snd] in H.
    destruct E1 as (l & L1 & L2 & L3 & L4 & L5 & L6 & L7 & L8 & L9 & L10).
    rewrite (create_spec C W s1 d1 L3) in H.
    apply pair_equal_spec in H as [<- E]. apply pair_equal_spec in E as [<- E]. apply pair_equal_spec in E as [<- <-].
    split.
    + cbv [omap obind]. unfold filled. exists l. auto 12.
    + intros r E. now inversion E.
  - apply pair_equal_spec in H as [<- E]. apply pair_equal_spec in E as [<- E]. apply pair_equal_spec in E as [<- <-].
    split; [exact E1|discriminate].
  - apply pair_equal_spec in H as [<- E]. apply pair_equal_spec in E as [<- E]. apply pair_equal_spec in E as [<- <-].
    split; [exact E1|discriminate].
  - contradiction.
  - apply pair_equal_spec in H as [<- E]. apply pair_equal_spec in E as [<- E]. apply pair_equal_spec in E as [<- <-].
    split; [exact E1|discriminate].
Qed.

(** ** The API calls *)

Definition crinv C W (c : conn) : Prop := rinv C W (cn_rd c) (cn_dec c).
Definition rkey (c : conn) : kstate := r_state (rd_ks (cn_rd c)).

Definition recv_result C W (c : conn) (o : op) (r : outcome tls_error value) (c' : conn) : Prop :=
  match r with
  | Diverge => False
  | Panic x => unread c = [] /\ panics C W (cn_rd c) x
  | _ =>
      exists l got, opens C W (k_key (rkey c)) (k_iv (rkey c)) (k_counter (rkey c)) l /\
        rkey c' = kadv (rkey c) (N.of_nat (length l)) /\ crinv C W c' /\
        length (rd_buf (cn_rd c')) = length (rd_buf (cn_rd c)) /\
        (unread c <> [] -> l = [] /\ cn_rd c' = cn_rd c /\ (cn_opened c = true -> exists v, r = Ok v)) /\
        take o r (unread c ++ concat (data_of l)) got (unread c') /\
        (cn_opened c' = cn_opened c \/ cn_opened c' = false /\ r = Err ConnectionClosed /\ ended C W (rkey c) l)
  end.

Lemma recv_same C W c o r : crinv C W c -> cn_opened c = false -> (forall v, r <> Ok v) -> (match r with Diverge | Panic _ => False | _ => True end) ->
  recv_result C W c o r c.
Proof.
  intros Hc Hop Hv Hr. assert (G : exists l got, opens C W (k_key (rkey c)) (k_iv (rkey c)) (k_counter (rkey c)) l /\
        rkey c = kadv (rkey c) (N.of_nat (length l)) /\ crinv C W c /\
        length (rd_buf (cn_rd c)) = length (rd_buf (cn_rd c)) /\
        (unread c <> [] -> l = [] /\ cn_rd c = cn_rd c /\ (cn_opened c = true -> exists v, r = Ok v)) /\
        take o r (unread c ++ concat (data_of l)) got (unread c) /\
        (cn_opened c = cn_opened c \/ cn_opened c = false /\ r = Err ConnectionClosed /\ ended C W (rkey c) l)).
  { exists [], []. cbn [length data_of filter map concat]. rewrite kadv_0, app_nil_r.
    split; [constructor|]. repeat split; auto; try apply Hc; [congruence|]. now apply tk_failed. }
  destruct r; try exact G; contradiction.
Qed.

(** Taking [n] bytes off the unread data. *)
Lemma handle_split ops q : exists n, n <= length q /\ snd (handle ops q) = skipn n q.
Proof.
  destruct (rb_run_spec q ops 0 false ltac:(lia)) as (n & _ & Hn & E). cbn [skipn] in E. exists n. split; [lia|exact E].
Qed.

Lemma recv_step C W c o r c' : crypto_ok C -> crinv C W c -> receives o = true -> step C o c = (r, c') ->
  cn_wh c' = cn_wh c /\ cn_shared c' = cn_shared c /\ recv_result C W c o r c'.
Proof.
  intros HC Hc Ho H.
  (* the calls that fill the buffer and then do something with the handle *)
  assert (Hfill : forall (A : Type) (m : rbuf -> M rhalf tls_error A) (g : A -> value) (m0 : M rhalf tls_error A),
     (forall st, m0 st = (b <- rh_read_buffered C ;; m b) st) ->
     (forall s d op, rinv C W s d -> unread_of s d <> [] -> exists a d',
        m (rb_new (unread_of s d)) (s, (d, op)) = (Ok a, (s, (d', op))) /\ rinv C W s d' /\
        exists got, take o (Ok (g a)) (unread_of s d) got (unread_of s d')) ->
     step C o c = (x <- on_rh m0 ;; ret (g x)) c ->
     cn_wh c' = cn_wh c /\ cn_shared c' = cn_shared c /\ recv_result C W c o r c').
  { intros A m g m0 Hm0 Hm Hstep. rewrite Hstep in H. unfold bind at 1, on_rh in H. rewrite Hm0 in H. unfold bind at 1 in H.
    destruct (rh_read_buffered C (cn_rd c, (cn_dec c, cn_opened c))) as [o1 [s1 [d1 op1]]] eqn:E1.
    apply (rh_buffered_any C W) in E1; [|exact HC|exact Hc].
    destruct (cn_opened c) eqn:Eop.
    2:{ destruct E1 as (-> & -> & -> & ->). apply pair_equal_spec in H as [<- <-].
        rewrite <- Eop.  cbn [cn_wh cn_shared]. split; [reflexivity|]. split; [reflexivity|].
        replace (mk_conn (cn_rd c) (cn_dec c) (cn_wh c) (cn_shared c) (cn_opened c)) with c by (destruct c; reflexivity).
        apply recv_same; [exact Hc|exact Eop|discriminate|exact I]. }
    destruct E1 as [Ef Eb].
    assert (Herr : forall r0, match r0 with Ok _ => False | _ => True end -> filled C W (cn_rd c) (cn_dec c) true (omap (fun _ => tt) r0) s1 d1 op1 ->
       (r, c') = (match r0 with Ok v => Ok v | Err e => Err e | Panic x => Panic x | Diverge => Diverge | Cancelled => Cancelled end,
           mk_conn s1 d1 (cn_wh c) (cn_shared c) op1) ->
       cn_wh c' = cn_wh c /\ cn_shared c' = cn_shared c /\ recv_result C W c o r c').
    { intros r0 Hr0 Hf0 E. apply pair_equal_spec in E as [-> ->]. cbn [cn_wh cn_shared]. split; [reflexivity|]. split; [reflexivity|].
      destruct r0 as [v|e|x| |]; try contradiction; cbv [omap obind] in Hf0; unfold filled in Hf0; unfold recv_result.
      - destruct Hf0 as (l & L1 & L2 & L3 & L4 & L5 & L6 & L7 & L8 & L9 & L10). exists l, [].
        split; [exact L1|]. split; [exact L2|]. split; [exact L3|]. split; [exact L4|]. split; [intros Hu; now destruct (L7 Hu) as (_ & _ & _ & [=])|].
        split; [unfold unread at 2; cbn [cn_rd cn_dec]; rewrite L6; apply tk_failed; discriminate|].
        cbn [cn_opened]. destruct L8 as [->|(-> & L8 & L8')]; [left; congruence|right; split; [reflexivity|split; [congruence|exact L8']]].
      - exact Hf0.
      - destruct Hf0 as (l & L1 & L2 & L3 & L4 & L5 & L6 & L7 & L8 & L9 & L10). exists l, [].
        split; [exact L1|]. split; [exact L2|]. split; [exact L3|]. split; [exact L4|]. split; [intros Hu; now destruct (L7 Hu) as (_ & _ & _ & [=])|].
        split; [unfold unread at 2; cbn [cn_rd cn_dec]; rewrite L6; apply tk_failed; discriminate|].
        cbn [cn_opened]. destruct L8 as [->|(-> & L8 & _)]; [left; congruence|discriminate]. }
    destruct o1 as [rb|e|x| |].
    - rewrite (Eb rb eq_refl) in H. cbv [omap obind] in Ef. unfold filled in Ef.
      destruct Ef as (l & L1 & L2 & L3 & L4 & L5 & L6 & L7 & L8 & L9 & L10).
      destruct (Hm s1 d1 op1 L3 (L9 eq_refl)) as (a & d2 & Em & Hr2 & got & Ht).
      rewrite Em in H. unfold ret in H. apply pair_equal_spec in H as [<- <-]. cbn [cn_wh cn_shared]. split; [reflexivity|]. split; [reflexivity|].
      unfold recv_result. exists l, got. split; [exact L1|]. split; [exact L2|]. split; [exact Hr2|]. split; [exact L4|].
      split; [intros Hu; destruct (L7 Hu) as (-> & -> & _); split; [reflexivity|]; split; [reflexivity|eauto]|]. unfold unread. cbn [cn_rd cn_dec cn_opened]. rewrite L6 in Ht. split; [exact Ht|].
      destruct L8 as [->|(-> & L8 & _)]; [left; congruence|discriminate].
    - apply (Herr (Err e)); [exact I|exact Ef|now symmetry].
    - apply (Herr (Panic x)); [exact I|exact Ef|now symmetry].
    - apply (Herr Diverge); [exact I|exact Ef|now symmetry].
    - apply (Herr Cancelled); [exact I|exact Ef|now symmetry]. }
  destruct o as [b| |pol|dst| |n|ops fin| ]; try discriminate.
  - (* read *)
    destruct dst as [|b0 dst0] eqn:Edst.
    { cbn in H. apply pair_equal_spec in H as [<- <-]. cbn [cn_wh cn_shared]. split; [reflexivity|]. split; [reflexivity|].
      unfold recv_result. exists [], []. cbn [length data_of filter map concat]. unfold rkey, unread, crinv. cbn [cn_rd cn_dec cn_opened].
      rewrite kadv_0, app_nil_r. split; [constructor|]. split; [reflexivity|]. split; [exact Hc|]. split; [reflexivity|].
      split; [intros _; split; [reflexivity|]; split; [reflexivity|eauto]|]. split; [constructor|]. now left. }
    rewrite <- Edst in *. assert (Hd : length dst <> 0) by (rewrite Edst; discriminate).
    apply (Hfill _ (fun rb => bnr <- lift (rb_pop_into dst rb) ;; rh_drop (snd bnr) ;;; ret (snd (fst bnr), fst (fst bnr)))
             (fun nb => VRead (fst nb) (snd nb)) (rh_read C dst)); [| |reflexivity].
    + intros st. unfold rh_read. destruct (Nat.eqb_spec (length dst) 0); [contradiction|reflexivity].
    + intros s d op Hr Hu. set (q := unread_of s d) in *. set (n := Nat.min (length dst) (length q)).
      exists (n, firstn n q ++ skipn n dst), (dec_skip d n).
      assert (Hn : n <= length q) by (unfold n; lia).
      destruct (skip_spec C W s d n Hr Hn) as [K1 K2]. split; [|split; [exact K1|]].
      * unfold bind at 1, lift at 1. unfold rb_new. rewrite pop_into_spec by lia. cbv zeta. rewrite Nat.sub_0_r. fold n.
        cbn [skipn snd fst]. reflexivity.
      * exists (firstn n q). fold q in K2. rewrite K2. cbn [fst snd]. apply tk_read; auto. rewrite Edst. discriminate.
  - (* fill_buf *)
    apply (Hfill _ (fun rb => sr <- lift (rb_peek_all rb) ;; rh_drop (snd sr) ;;; ret (fst sr))
             VBytes (rh_fill_buf C)); [reflexivity| |reflexivity].
    intros s d op Hr Hu. set (q := unread_of s d) in *. exists q, (dec_skip d 0).
    destruct (skip_spec C W s d 0 Hr ltac:(lia)) as [K1 K2]. split; [|split; [exact K1|]].
    + unfold bind at 1, lift at 1. unfold rb_peek_all, rb_new. rewrite rb_len_ok by lia. cbn [obind]. rewrite peek_spec by lia.
      cbn [skipn]. rewrite Nat.sub_0_r, firstn_all. cbn [fst snd]. reflexivity.
    + exists []. rewrite K2. cbn [skipn]. now apply tk_fill.
  - (* consume *)
    cbn [step] in H. unfold bind at 1, on_rh, rh_consume, bind at 1, get at 1, bind at 1, lift at 1 in H. cbn [fst snd] in H.
    rewrite (create_spec C W _ _ Hc) in H. fold (unread c) in H. unfold bind at 1, lift at 1, rb_new in H. rewrite pop_spec in H by lia.
    unfold rh_drop, bind, get, rh_set_dec, modify, ret in H. cbn [fst snd rb_drop rb_used rb_consumed] in H.
    rewrite Nat.sub_0_r, Nat.add_0_l in H. set (m := Nat.min (length (unread c)) n) in H.
    apply pair_equal_spec in H as [<- <-]. cbn [cn_wh cn_shared]. split; [reflexivity|]. split; [reflexivity|].
    destruct (skip_spec C W (cn_rd c) (cn_dec c) m Hc) as [K1 K2]; [fold (unread c); unfold m; lia|].
    unfold recv_result. exists [], (firstn n (unread c)). cbn [length data_of filter map concat].
    rewrite kadv_0, app_nil_r. split; [constructor|]. split; [reflexivity|]. split; [exact K1|]. split; [reflexivity|].
    split; [intros _; split; [reflexivity|]; split; [reflexivity|eauto]|]. split; [|now left].
    match goal with |- take _ _ _ _ (unread ?cc) => assert (E : unread cc = skipn n (unread c)) end.
    { change (unread_of (cn_rd c) (dec_skip (cn_dec c) m) = skipn n (unread c)). rewrite K2. fold (unread c).
      pose proof (skipn_min (unread c) 0 n) as E. rewrite Nat.sub_0_r, Nat.add_0_l in E. exact E. }
    rewrite E. apply tk_consume.
  - (* read_buffered *)
    apply (Hfill _ (fun rb => p <- lift (rb_run ops rb) ;;
        match fin with RbDrop => rh_drop (snd p) | RbRevert => st <- get ;; rh_set_dec (rb_revert (snd p) (fst (snd st))) end ;;;
        ret (fst p)) VSlices (rh_with_buffer C ops fin)); [reflexivity| |reflexivity].
    intros s d op Hr Hu. set (q := unread_of s d) in *.
    destruct (rb_run_spec q ops 0 false ltac:(lia)) as (n' & E1 & Hn' & E2). cbn [skipn] in E1, E2.
    exists (fst (handle ops q)).
    destruct fin.
    + set (n := match ops with [] => length q | _ => n' end).
      assert (Hn : n <= length q) by (unfold n; destruct ops; lia).
      exists (dec_skip d n). destruct (skip_spec C W s d n Hr Hn) as [K1 K2]. split; [|split; [exact K1|]].
      * unfold bind at 1, lift at 1, rb_new. rewrite E1. unfold rh_drop, bind, get, rh_set_dec, modify, ret. cbn [fst snd].
        unfold rb_drop, dec_skip, n. cbn [rb_used rb_consumed rb_data]. destruct ops; reflexivity.
      * assert (Hleft : handle_left ops RbDrop q = skipn n q).
        { unfold handle_left, n. destruct ops; [now rewrite skipn_all|exact E2]. }
        exists (firstn n q). fold q in K2. rewrite K2. rewrite <- Hleft. apply tk_handle; [exact Hu|]. rewrite Hleft. symmetry. apply firstn_skipn.
    + exists d. split; [|split; [exact Hr|]].
      * unfold bind at 1, lift at 1, rb_new. rewrite E1. unfold bind, get, rh_set_dec, modify, ret, rb_revert. cbn [fst snd]. reflexivity.
      * exists []. apply (tk_handle ops RbRevert q []); auto.
Qed.
