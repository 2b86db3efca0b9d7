(** * A handshake that must succeed *)
From Coq Require Import String List NArith Arith Bool Lia ZArith.
From Coq.Strings Require Import Byte.
From Coq Require Import ZifyBool ZifyNat ZifyN.
From Verif Require Import Base ParseBuffer Buffer Codes Extensions Crypto KeySchedule Config Handshake Record WriteBuffer
  Transport RecordReader ReadBuffer Connection Api BaseProofs ParseProofs SpecWire SpecCodes SpecMessages WireProofs BufferProofs ExtProofs SpecKeys
  SpecRecord SpecRead KeyProofs RecordProofs SpecSend SendProofs SpecHello HelloProofs PropHello WriteProofs PropKeys PropCert HsWrite HsProofs ConnProofs FrameProofs DecryptProofs
  FlagProofs ReadProofs RecvProofs SpecHandshake AcceptProofs LocalProofs FlightProofs OpenProofs SpecOpen SpecComplete MessageProofs.
From Verif Require TermProofs.
Import ListNotations.
Local Open Scope list_scope.

(** ** Sending *)

Lemma respond_fwd s w : tx_ok (wh_tx w) -> (k_counter (wst w) < u64_max)%N ->
  exists w', respond s w = (Ok tt, w') /\ tx_ok (wh_tx w').
Proof.
  intros Ht Hc. rewrite respond_send. destruct (send_cases s true w) as (o & w' & He & Hs & _ & _ & Htx & _).
  exists w'. rewrite He. split; [|auto]. f_equal.
  inversion Hs as [o' n Hio Hn Hnok Hk Hlog Eo|Hmax Hk Hlog Eo|Hcnt Hk Hlog Eo|o' Hcnt Hk Hio Hst Hnok Hlog Eo]; subst.
  - exfalso. apply Hnok. exact (proj1 Ht).
  - lia.
  - reflexivity.
  - exfalso. now apply Hnok.
Qed.

(** The record fits a write buffer of [L] bytes. *)
Definition room_for (C : crypto) (L : nat) (r : client_record) (w : wks) (tr : bytes) : Prop :=
  match r with
  | CR_Handshake (CH_Hello h) _ =>
      length (ch_random h) = 32 /\
      hello_size (ch_config h) (length (c_pub C (ch_secret h))) (hash_len C) <= L
  | CR_Handshake m true => length (msg_wire m) + 22 <= L /\ encodes (enc_client_handshake C m) (msg_wire m) tt
  | CR_Alert _ _ _ => 24 <= L
  | _ => False
  end.

Lemma wr_rec_fwd C L r w tr b : crypto_ok C -> length (k_iv (w_state w)) = iv_len C ->
  pending L b None -> sendable r -> has_binder r w -> room_for C L r w tr ->
  exists s tr' b', wb_write_record C r w tr b = (Ok (s, tr'), b').
Proof.
  intros HC Hiv (Hl & Hp & Hh) Hsd Hbk Hroom. rewrite (wbuf_eta b), Hp, Hh.
  destruct r as [m e|l d e].
  2:{ cbn [room_for] in Hroom. destruct e.
      2:{ do 3 eexists. eapply (write_record_plain C (CR_Alert l d false) w tr (alert_wire l d) (alert_wire l d)); auto;
            [apply encodes_alert|reflexivity|unfold alert_wire; rewrite ?app_length, ?uint_length; cbn [length]; lia]. }
      do 3 eexists. eapply (write_record_protected C (CR_Alert l d true) w tr (alert_wire l d) (alert_wire l d)); auto;
        [apply encodes_alert|reflexivity|unfold alert_wire; rewrite ?app_length, ?uint_length; cbn [length]; lia]. }
  assert (Hm : not_hello m -> room_for C L (CR_Handshake m e) w tr ->
    exists s tr' b', wb_write_record C (CR_Handshake m e) w tr (mk_wbuf (wb_buf b) 0 None) = (Ok (s, tr'), b')).
  { intros Hn Hr. destruct e; [|destruct m; contradiction].
    assert (Hr' : length (msg_wire m) + 22 <= L /\ encodes (enc_client_handshake C m) (msg_wire m) tt) by (destruct m; [exact Hr|exact Hr|contradiction|exact Hr]).
    destruct Hr' as [Hfit Henc].
    do 3 eexists. eapply (write_record_protected C (CR_Handshake m true) w tr (msg_wire m) (msg_wire m)); auto; [reflexivity|lia]. }
  destruct m as [c|v|h|f]; try (now apply Hm). clear Hm. cbn in Hsd. subst e. destruct Hroom as [Hrnd Hroom].
  assert (Hlt : hash_len C < 256) by (destruct (ok_sizes C HC); lia).
  assert (Hb : exists bk, cfg_psk (ch_config h) <> None -> w_binder w = Some bk).
  { specialize (Hbk h false eq_refl). destruct (cfg_psk (ch_config h)); [|exists []; intros []; reflexivity].
    destruct Hbk as [bk Hbk]; [discriminate|]. now exists bk. }
  destruct Hb as [bk Hb].
  destruct (PropHello.hello_record C h w tr bk (wb_buf b) HC Hlt Hb) as (msg & binders & _ & Himg & Hbl & Hok & _).
  do 3 eexists. apply Hok.
  rewrite Himg, hello_image_length by assumption. lia.
Qed.

Section Fwd.
Context {V : Type} (C : crypto) (p : provider V) (cfg : tls_config).

Lemma sends_fwd L r c (h : @hs_data V) : crypto_ok C -> idle C L c -> sendable r -> has_binder r (wh_ks (cn_wh c)) ->
  room_for C L r (wh_ks (cn_wh c)) (tr_of c) ->
  tx_ok (wh_tx (cn_wh c)) -> (k_counter (wst (cn_wh c)) < u64_max)%N ->
  exists s c1 msg c', cn_write_record C r c = (Ok s, c1) /\
    (forall h, on_conn (V:=V) (on_wh (respond s)) (c1, h) = (Ok tt, (c', h))) /\
    sends C L r c msg c' /\ tx_ok (wh_tx (cn_wh c')).
Proof.
  intros HC Hid Hsd Hbk Hroom Htx Hcnt.
  destruct (wr_rec_fwd C L r (wh_ks (cn_wh c)) (tr_of c) (wh_wb (cn_wh c)) HC (proj2 Hid) (proj1 Hid) Hsd Hbk Hroom) as (s & tr' & b' & Hw).
  assert (Hcw : exists c1, cn_write_record C r c = (Ok s, c1) /\ wh_tx (cn_wh c1) = wh_tx (cn_wh c) /\ wh_ks (cn_wh c1) = wh_ks (cn_wh c)).
  { eexists. split; [|split; [|]].
    - unfold cn_write_record, bind at 1, get at 1. unfold bind at 1, on_wh at 1, on_wb at 1.
      fold (tr_of c). rewrite Hw. reflexivity.
    - reflexivity.
    - reflexivity. }
  destruct Hcw as (c1 & Hcw & Htx1 & Hks1).
  destruct (respond_fwd s (cn_wh c1)) as (w' & Hr & Htx').
  { now rewrite Htx1. }
  { unfold wst in *. now rewrite Hks1. }
  assert (Hr' : forall h, on_conn (V:=V) (on_wh (respond s)) (c1, h) = (Ok tt, (mk_conn (cn_rd c1) (cn_dec c1) w' (cn_shared c1) (cn_opened c1), h))).
  { intros h0. unfold on_conn, on_wh. cbn [fst snd]. rewrite Hr. reflexivity. }
  destruct (sends_ok C L r c s c1 h tt _ HC Hid Hsd Hbk Hcw (Hr' h)) as (msg & c' & Hs & E).
  apply pair_inv in E as [<- _].
  exists s, c1, msg. eexists. split; [exact Hcw|]. split; [exact Hr'|]. split; [exact Hs|]. exact Htx'.
Qed.

(** ** Runs made of successful steps *)

Inductive goes : hs_state -> conn -> @hs_data V -> hs_state -> conn -> @hs_data V -> Prop :=
| go_done s c h : goes s c h s c h
| go_step s c h s1 c1 h1 s2 c2 h2 : s <> St_ApplicationData ->
    process C p cfg s (c, h) = (Ok s1, (c1, h1)) -> goes s1 c1 h1 s2 c2 h2 -> goes s c h s2 c2 h2.

Lemma goes_trans s c h s1 c1 h1 s2 c2 h2 : goes s c h s1 c1 h1 -> goes s1 c1 h1 s2 c2 h2 -> goes s c h s2 c2 h2.
Proof. intros H. induction H; auto. intros H2. econstructor; eauto. Qed.

Lemma goes_hrun L s c h c' h' : crypto_ok C -> idle C L c -> goes s c h St_ApplicationData c' h' -> hrun C p cfg L s c h c' h'.
Proof.
  intros HC Hid H. remember St_ApplicationData as sd eqn:E. revert E Hid.
  induction H as [s c h|s c h s1 c1 h1 s2 c2 h2 Hs Hp Hr IH]; intros E Hid; subst.
  - constructor.
  - apply (process_pstep C p cfg L) in Hp; auto. econstructor; [exact Hp|]. apply IH; [reflexivity|].
    eapply pstep_idle; eauto.
Qed.

Lemma pstep_advances L s c h s' c' h' : between (cn_rd c) -> pstep C p cfg L s c h s' c' h' ->
  5 * TermProofs.rank s' + rx_size (rd_rx (cn_rd c')) + 5 <= 5 * TermProofs.rank s + rx_size (rd_rx (cn_rd c)).
Proof.
  intros Hb H. inversion H as [cx hx k1 msg cx' Hk Hsd|cx hx r1 exts secret dhe k2 Hrd|cx hx rec r1 r2 sx hx' Hrd Hd|cx hx ctx msg cx' Hc Hsd Hraw|cx hx sign scheme m sg msg cx' Hsg Hm Hsi Hlen Hsd|cx hx v msg c1 tr k3 Hv Hsd]; subst.
  - destruct Hsd as (_ & _ & -> & _). cbn. lia.
  - destruct (rd_read_any C _ _ _ (proj1 Hb) Hrd) as (_ & _ & Hsz & [[Hf _]|(hh & f & Hcm & _)]); [contradiction|]. cbn. lia.
  - destruct (rd_read_any C _ _ _ (proj1 Hb) Hrd) as (_ & _ & Hsz & [[Hf _]|(hh & f & Hcm & _)]); [contradiction|].
    destruct Hcm as (_ & _ & _ & _ & _ & Hsz' & _).
    pose proof (stays_decrypt C (server_verify_cb C p) rec (r1, (St_ServerVerify, h))) as Hst. rewrite Hd in Hst. cbn [fst snd] in Hst.
    destruct Hst as (_ & _ & Hrx & _).
    assert (Ha : after_verify s').
    { pose proof (holds_decrypt C (server_verify_cb C p) (fun x => after_verify (fst x))) as Hh.
      specialize (Hh (fun k r st => server_verify_after C p k r st) rec (r1, (St_ServerVerify, h))). rewrite Hd in Hh. apply Hh. exact I. }
    cbn [cn_rd]. rewrite Hrx. destruct s'; cbn in *; try contradiction; lia.
  - destruct Hsd as (_ & _ & -> & _). destruct (p_client_cert p); cbn; lia.
  - destruct Hsd as (_ & _ & -> & _). cbn. lia.
  - destruct Hsd as (_ & _ & Hr & _). unfold cn_with_keysched. cbn [cn_rd rd_with_ks rd_rx]. rewrite Hr. cbn. lia.
Qed.

Lemma goes_open L fuel s c h c' h' : crypto_ok C -> idle C L c -> between (cn_rd c) ->
  goes s c h St_ApplicationData c' h' ->
  5 * TermProofs.rank s + rx_size (rd_rx (cn_rd c)) < 5 * fuel ->
  open_loop C p cfg fuel s (c, h) = (Ok tt, (c', h')).
Proof.
  intros HC Hid Hb H. remember St_ApplicationData as sd eqn:E. revert fuel E Hid Hb.
  induction H as [s c h|s c h s1 c1 h1 s2 c2 h2 Hs Hp Hr IH]; intros fuel E Hid Hb Hf; subst.
  - destruct fuel; reflexivity.
  - destruct fuel as [|fuel]; [lia|]. rewrite TermProofs.open_loop_round by assumption. unfold bind. rewrite Hp.
    apply (process_pstep C p cfg L) in Hp; auto.
    pose proof (pstep_advances L _ _ _ _ _ _ Hb Hp).
    apply IH; [reflexivity| | |lia].
    + eapply pstep_idle; eauto.
    + eapply pstep_between; eauto.
Qed.
End Fwd.

(** ** Reading *)

Lemma type_ok h t ct : hd_error h = Some t -> content_type_of (Byte.to_N t) = Some ct -> known_type h /\ hdr_content_type h = Ok ct.
Proof.
  intros Hh Ht. destruct h as [|b h]; [discriminate|]. injection Hh as ->.
  unfold known_type, hdr_decode, hdr_content_type, index. cbn [nth_error obind]. now rewrite Ht.
Qed.

Lemma place_ok s n : n <= length (rd_buf s) -> place s n + n <= length (rd_buf s).
Proof. intros H. unfold place. destruct (Nat.ltb_spec (length (rd_buf s)) (rd_decoded s + n)); lia. Qed.

Lemma read_fwd C s h f rest t ct rec tr' : ready s -> stream (rd_rx s) = h ++ f ++ rest -> framed h f ->
  hd_error h = Some t -> content_type_of (Byte.to_N t) = Some ct -> length f <= length (rd_buf s) ->
  sr_decode C h (place s (length f)) f (r_transcript (rd_ks s)) = Ok (rec, tr') ->
  exists r1, rd_read C s = (Ok rec, r1) /\ ready r1 /\ stream (rd_rx r1) = rest /\
    length (rd_buf r1) = length (rd_buf s) /\ rd_ks r1 = r_with_transcript (rd_ks s) tr'.
Proof.
  intros Hr Hs Hf Hh Ht Hl Hd. destruct (type_ok h t ct Hh Ht) as [Hk _].
  destruct (ready_frame C s h f rest Hr Hs Hf Hk Hl) as (rx' & Hrx & Hch & ->). rewrite Hd. cbn [fst snd].
  pose proof (place_ok s (length f) Hl).
  eexists. split; [reflexivity|]. unfold ready. cbn [rd_pending rd_decoded rd_buf rd_rx rd_ks].
  rewrite splice_length by lia. auto 10.
Qed.

Lemma decode_length h f : framed h f -> hdr_content_length h = Ok (length f).
Proof. apply framed_length. Qed.

(** ** ServerHello *)

Lemma app_len {A} (a b c d : list A) : length a = length c -> a ++ b = c ++ d -> a = c /\ b = d.
Proof.
  revert c. induction a as [|x a IH]; intros [|y c] Hl H; try discriminate; [auto|].
  cbn in *. injection H as -> H. destruct (IH c ltac:(lia) H) as [-> ->]. auto.
Qed.

(** The share of a ServerHello is determined. *)
Lemma share_of_unique items g1 s1 g2 s2 : share_of items g1 s1 -> share_of items g2 s2 -> s1 = s2.
Proof.
  intros (pre1 & post1 & j1 & E1 & F1 & I1 & L1) (pre2 & post2 & j2 & E2 & F2 & I2 & L2).
  assert (H : uint 2 g1 ++ vec 2 s1 ++ j1 = uint 2 g2 ++ vec 2 s2 ++ j2).
  { subst items. revert pre2 E2 F2. induction pre1 as [|x pre1 IH]; intros [|y pre2] E2 F2; cbn [app] in E2.
    - congruence.
    - inversion F2 as [|? ? Hy]; subst. injection E2 as E2 _. subst y. cbn in Hy. congruence.
    - inversion F1 as [|? ? Hx]; subst. injection E2 as E2 _. subst x. cbn in Hx. congruence.
    - injection E2 as E2 E3. inversion F1; inversion F2; subst. eapply IH; eauto. }
  apply app_len in H as [_ H]; [|now rewrite !uint_length].
  rewrite !vec_eq, <- !app_assoc in H. apply app_len in H as [Hu H]; [|now rewrite !uint_length].
  assert (length s1 = length s2).
  { apply (f_equal be_val) in Hu. rewrite !be_val_uint_small in Hu by assumption. lia. }
  now apply app_len in H as [-> _].
Qed.

Lemma share_present items xs g share : block_result grp_server_hello 4 [] items = Ok xs -> share_of items g share ->
  exists g', sh_key_share xs = Some (g', share).
Proof.
  intros Hb Hs.
  assert (G : forall items acc0 xs, block_result grp_server_hello 4 acc0 items = Ok xs -> share_of items g share ->
     sh_key_share xs <> None).
  { clear. assert (Hkeep : forall items acc xs, block_result grp_server_hello 4 acc items = Ok xs -> sh_key_share acc <> None -> sh_key_share xs <> None).
    { induction items as [|[t b] items IH]; intros acc0 xs H Ha; cbn [block_result] in H; [congruence|].
      destruct (ext_type_of t) as [ty|]; [|eauto]. destruct (grp_server_hello ty) as [m|]; [|discriminate].
      destruct (fst (m (pb_new b))) as [x|e|s| |]; try discriminate. destruct (length acc0 <? 4); [|discriminate].
      eapply IH; [exact H|]. clear - Ha. induction acc0 as [|a0 a IHa]; [now cbn in Ha|]. cbn [app sh_key_share] in *.
      destruct (x_data a0); auto; discriminate. }
    induction items as [|[t b] items IH]; intros acc0 xs H (pre & post & junk & E & Hp & Hg & Hf); [destruct pre; discriminate|].
    destruct pre as [|[t' b'] pre]; cbn [app] in E.
    - injection E as -> -> ->. cbn [block_result] in H. change (ext_type_of 51) with (Some ET_KeyShare) in H. cbn iota beta in H.
      cbn [grp_server_hello] in H.
      destruct (fst (_ (pb_new (uint 2 g ++ vec 2 share ++ junk)))) as [x|e|s| |] eqn:Em; try discriminate.
      destruct (length acc0 <? 4); [|discriminate]. eapply Hkeep; [exact H|].
      assert (Hx : exists g' o, x = XD_KeyShareSH g' o).
      { clear - Em. match type of Em with fst (?m ?q) = _ => destruct (m q) as [o q'] eqn:E end. cbn [fst] in Em. subst o.
        unfold parse_key_share_sh in E. apply HsProofs.bind_ok in E as ([g' o] & q1 & _ & E).
        unfold ret in E. inversion E. eauto. }
      destruct Hx as (g' & o & ->). clear. induction acc0 as [|a0 a IHa]; cbn; [discriminate|]. destruct (x_data a0); auto; discriminate.
    - injection E as -> -> ->. inversion Hp as [|? ? Ht Hp']; subst. cbn [block_result] in H.
      assert (Hs : share_of (pre ++ (51%N, uint 2 g ++ vec 2 share ++ junk) :: post) g share) by (exists pre, post, junk; auto).
      destruct (ext_type_of t') as [ty|]; [|eapply IH; eauto]. destruct (grp_server_hello ty) as [m|]; [|discriminate].
      destruct (fst (m (pb_new b'))) as [x|e|s| |]; try discriminate. destruct (length acc0 <? 4); [|discriminate].
      eapply IH; [exact H|exact Hs]. }
  specialize (G items [] xs Hb Hs). destruct (sh_key_share xs) as [[g' sh']|] eqn:E; [|now contradiction G].
  exists g'. f_equal. f_equal. eapply share_of_unique; [eapply share_of_block; eauto|exact Hs].
Qed.

Section Verify.
Context {V : Type} (C : crypto) (p : provider V) (cfg : tls_config).
Notation sv := (hs_state * @hs_data V)%type.

Lemma decode_message h f b junk off tr hh : f = b ++ junk -> framed h f -> hd_error h = Some ty_handshake ->
  parses (parse_server_handshake C) b hh ->
  sr_decode C h off f tr = Ok (SR_Handshake (with_hash C tr hh), tr ++ b).
Proof.
  intros -> Hf Hh Hp. unfold sr_decode. rewrite (framed_length _ _ Hf). cbn [obind]. rewrite Nat.eqb_refl. cbn [negb].
  rewrite (proj2 (type_ok h ty_handshake CT_Handshake Hh eq_refl)). cbn [obind].
  replace (pb_new (b ++ junk)) with (at_pos [] b junk) by reflexivity.
  rewrite (read_message C tr [] b junk hh Hp). reflexivity.
Qed.

Lemma hpe_fwd (m : M (conn * @hs_data V) tls_error hs_state) st s' st' :
  m st = (Ok s', st') -> handle_processing_error C m st = (Ok s', st').
Proof. intros H. unfold handle_processing_error, attempt, bind. rewrite H. reflexivity. Qed.

Lemma server_hello_fwd c h h0 shello junk rest suite items g share secret dhe :
  ready (cn_rd c) -> stream (rd_rx (cn_rd c)) = h0 ++ (shello ++ junk) ++ rest -> framed h0 (shello ++ junk) ->
  hd_error h0 = Some ty_handshake -> length (shello ++ junk) <= length (rd_buf (cn_rd c)) ->
  understood C shello (M_ServerHello suite items) -> share_of items g share ->
  hs_secret h = Some secret -> c_dh C secret share = Some dhe ->
  exists r1, ready r1 /\ stream (rd_rx r1) = rest /\ length (rd_buf r1) = length (rd_buf (cn_rd c)) /\
    rd_ks r1 = r_with_transcript (rd_ks (cn_rd c)) (tr_of c ++ shello) /\
    forall k2, initialize_handshake_secret C (mk_keysched (cn_shared c) (wh_ks (cn_wh c)) (rd_ks r1)) dhe = Ok k2 ->
    process C p cfg St_ServerHello (c, h) = (Ok St_ServerVerify,
      (mk_conn (rd_with_ks r1 (ks_r k2)) (cn_dec c) (wh_with_ks (cn_wh c) (ks_w k2)) (ks_shared k2) (cn_opened c), hs_set_secret None h)).
Proof.
  intros Hr Hs Hf Hh Hl Hu Hsh Hsec Hdh.
  destruct (understood_parses C shello _ Hu) as (hh & Hp & Hd). destruct hh; cbn [denotes] in Hd; try contradiction.
  destruct (share_present items _ g share Hd Hsh) as [g' Hks].
  destruct (read_fwd C (cn_rd c) h0 (shello ++ junk) rest ty_handshake CT_Handshake _ _ Hr Hs Hf Hh eq_refl Hl
    (decode_message h0 _ shello junk _ _ _ eq_refl Hf Hh Hp)) as (r1 & Hrd & Hr1 & Hs1 & Hb1 & Hk1).
  exists r1. repeat (split; [assumption|]). intros k2 Hk2. cbn [process].
  unfold bind at 1, on_conn at 1, on_rd at 1. cbn [fst snd]. rewrite Hrd. cbn [with_hash].
  apply hpe_fwd. unfold process_server_hello. unfold bind at 1, get at 1. unfold bind at 1, mod_hs, modify at 1. cbn [fst snd].
  unfold bind at 1, lift at 1. rewrite Hsec. cbn [ok_or].
  unfold bind at 1, lift at 1, sh_shared_secret. rewrite Hks, Hdh. cbn [ok_or].
  unfold bind at 1, on_conn at 1, on_ks at 1, cn_keysched. cbn [fst snd cn_shared cn_wh cn_rd]. rewrite Hk2. reflexivity.
Qed.

(** ** The messages of the flight *)

Inductive takes (t : bytes) : bytes -> sv -> list (bytes * smsg) -> sv -> Prop :=
| tk_nil tr st : takes t tr st [] st
| tk_cons tr st b m hh st1 ms st2 :
    understood C b m -> denotes m hh -> parses (parse_server_handshake C) b hh ->
    (forall k, k_traffic (r_state k) = Some t -> r_transcript k = tr ++ b ->
       server_verify_cb C p k (SR_Handshake (with_hash C tr hh)) st = (Ok tt, st1)) ->
    takes t (tr ++ b) st1 ms st2 -> takes t tr st ((b, m) :: ms) st2.

Lemma denotes_hash tr m hh : denotes m hh -> denotes m (with_hash C tr hh).
Proof. destruct m, hh; cbn; auto. Qed.

Lemma takes_absorb t tr st ms st' : takes t tr st ms st' -> absorb C p t tr st ms st'.
Proof.
  intros H. induction H as [tr st|tr st b m hh st1 ms st2 Hr Hd Hp Hcb Ht IH]; [constructor|].
  econstructor; [exact Hr|apply denotes_hash; exact Hd| | | | |exact IH].
  - intros f E. destruct hh; cbn in E; try discriminate. now inversion E.
  - instantiate (1 := mk_rks (mk_kstate (Some t) 0 [] []) (tr ++ b)). reflexivity.
  - reflexivity.
  - now apply Hcb.
Qed.

Lemma takes_app t tr st ms1 st1 ms2 st2 : takes t tr st ms1 st1 -> takes t (tr ++ raw ms1) st1 ms2 st2 ->
  takes t tr st (ms1 ++ ms2) st2.
Proof.
  intros H1 H2. induction H1 as [tr st|tr st b m hh st1 ms st2' Hr Hd Hp Hcb Ht IH].
  - cbn in H2. now rewrite app_nil_r in H2.
  - cbn [app]. econstructor; eauto. apply IH. unfold raw in *. cbn [map concat fst] in H2. now rewrite <- app_assoc.
Qed.

Lemma takes_split t ms1 ms2 : forall tr st st2, takes t tr st (ms1 ++ ms2) st2 ->
  exists st1, takes t tr st ms1 st1 /\ takes t (tr ++ raw ms1) st1 ms2 st2.
Proof.
  induction ms1 as [|[b m] ms1 IH]; intros tr st st2 H; cbn [app] in H.
  - exists st. unfold raw. cbn. rewrite app_nil_r. split; [constructor|exact H].
  - inversion H; subst. destruct (IH _ _ _ ltac:(eassumption)) as (stm & H1 & H2). exists stm. split; [econstructor; eauto|].
    unfold raw in *. cbn [map concat fst]. now rewrite app_assoc.
Qed.

(** What the closure needs to accept the message. *)
Definition agrees (t tr b : bytes) (m : smsg) (v v1 : V) : Prop :=
  match m with
  | M_Certificate ctx raw certs =>
      if p_has_verifier p then p_verify_cert p (tr ++ b) (mk_cert raw ctx (map CE_X509 certs)) v = (Ok tt, v1) else v1 = v
  | M_CertificateVerify sc sg =>
      if p_has_verifier p then exists scheme, sig_scheme_code scheme = sc /\ p_verify_sig p (mk_cv scheme sg) v = (Ok tt, v1) else v1 = v
  | M_Finished vd => rfc_verify_data C t tr = Some vd /\ v1 = v
  | _ => v1 = v
  end.

Lemma sig_scheme_code_inj a b : sig_scheme_code a = sig_scheme_code b -> a = b.
Proof. destruct a, b; cbn; intros H; try reflexivity; discriminate. Qed.

Lemma cb_fwd t tr b m hh s (h : @hs_data V) v1 : crypto_ok C -> understood C b m -> in_flight m -> denotes m hh ->
  agrees t tr b m (hs_v h) v1 ->
  exists s1 h1, hs_v h1 = v1 /\ forall k, k_traffic (r_state k) = Some t -> r_transcript k = tr ++ b ->
    server_verify_cb C p k (SR_Handshake (with_hash C tr hh)) (s, h) = (Ok tt, (s1, h1)).
Proof.
  intros HC Hu Hin Hd Ha. destruct m, hh; cbn [denotes in_flight agrees] in *; try contradiction; cbn [with_hash server_verify_cb].
  - exists s, h. split; [congruence|reflexivity].
  - subst c. destruct (p_has_verifier p).
    + exists s, (hs_with_v h v1). split; [reflexivity|]. intros k _ Htr. unfold on_v. cbn [fst snd]. rewrite Htr, Ha. reflexivity.
    + exists s, h. split; [congruence|reflexivity].
  - subst context0. exists s, (hs_set_certreq (Some context) h). split; [cbn; congruence|]. intros k _ _.
    destruct Hu as [(len & body & _ & (Hctx & _ & _) & _) _]. unfold bind, lift, cert_request_try_from.
    unfold fits in Hctx. rewrite (proj2 (Nat.leb_le _ _)); [reflexivity|]. change (256 ^ N.of_nat 1)%N with 256%N in Hctx. lia.
  - destruct Hd as [Hsc Hsg]. destruct v as [sc sg]. cbn [cv_scheme cv_sig] in *. subst scheme signature. destruct (p_has_verifier p).
    + destruct Ha as (scheme & Hsc & Ha). apply sig_scheme_code_inj in Hsc as ->.
      exists s, (hs_with_v h v1). split; [reflexivity|]. intros k _ _. unfold on_v. cbn [fst snd]. rewrite Ha. reflexivity.
    + exists s, h. split; [congruence|reflexivity].
  - destruct Ha as [Hvd ->]. 
    exists (match hs_certreq h with Some _ => St_ClientCert | None => St_ClientFinished end),
      (match hs_certreq h with Some _ => h | None => hs_set_traffic (Some (tr ++ b)) h end).
    split; [destruct (hs_certreq h); reflexivity|]. intros k Hk Htr. cbn [f_verify f_hash]. rewrite Hd.
    destruct (C11_server_finished C k t tr verify_data HC Hk) as (vd & Hvd' & Hok & _).
    unfold bind at 1, lift at 1. rewrite (proj2 Hok) by congruence. cbn [negb].
    unfold bind, get, mod_sv, set_sv, modify. cbn [fst snd]. destruct (hs_certreq h); cbn [fst snd]; [reflexivity|].
    rewrite Htr. reflexivity.
Qed.

Lemma takes_fwd t : crypto_ok C -> forall ms tr s (h : @hs_data V) v1,
  Forall (fun m => understood C (fst m) (snd m) /\ in_flight (snd m)) ms ->
  (forall pre b v post, ms = pre ++ (b, M_Finished v) :: post -> rfc_verify_data C t (tr ++ raw pre) = Some v) ->
  (p_has_verifier p = true -> accepts_all p tr ms (hs_v h) v1) ->
  exists st', takes t tr (s, h) ms st'.
Proof.
  intros HC. induction ms as [|[b m] ms IH]; intros tr s h v1 Hu Hf Ha; [exists (s, h); constructor|].
  inversion Hu as [|? ? [Hum Hin] Hu']; subst. cbn [fst snd] in *.
  destruct (understood_parses C b m Hum) as (hh & Hp & Hd).
  assert (Hag : exists vm, agrees t tr b m (hs_v h) vm /\ (p_has_verifier p = true -> accepts_all p (tr ++ b) ms vm v1)).
  { assert (Hfin : forall vd, m = M_Finished vd -> rfc_verify_data C t tr = Some vd).
    { intros vd ->. specialize (Hf [] b vd ms eq_refl). unfold raw in Hf. cbn in Hf. now rewrite app_nil_r in Hf. }
    destruct (p_has_verifier p) eqn:Ev.
    - specialize (Ha eq_refl). inversion Ha as [|? ? ? ? ? ? ? vm ? Hc Hr|? ? ? ? ? ? vm ? Hc Hr|? ? ? ? ? ? Hm Hr]; subst.
      + exists vm. unfold agrees. rewrite Ev. auto.
      + exists vm. unfold agrees. rewrite Ev. split; [eauto|auto].
      + exists (hs_v h). split; [|auto]. destruct m; cbn [agrees] in *; try contradiction; auto.
    - exists (hs_v h). split; [|discriminate]. destruct m; cbn [agrees]; rewrite ?Ev; auto. }
  destruct Hag as (vm & Hag & Hacc).
  destruct (cb_fwd t tr b m hh s h vm HC Hum Hin Hd Hag) as (s1 & h1 & Hv1 & Hcb).
  destruct (IH (tr ++ b) s1 h1 v1 Hu') as (st' & Ht).
  - intros pre b0 v post E. specialize (Hf ((b, m) :: pre) b0 v post). cbn [app] in Hf. rewrite E in Hf. specialize (Hf eq_refl).
    unfold raw in *. cbn [map concat fst] in Hf. now rewrite <- app_assoc.
  - rewrite Hv1. exact Hacc.
  - exists st'. econstructor; eauto.
Qed.

Lemma loop_fwd t : forall ms fuel pre s st st',
  takes t (r_transcript (rd_ks s)) st ms st' -> k_traffic (r_state (rd_ks s)) = Some t ->
  length (raw ms) < fuel ->
  handshake_loop C (server_verify_cb C p) fuel (at_pos pre (raw ms) []) (s, st) = (Ok tt, (with_tr s (r_transcript (rd_ks s) ++ raw ms), st')).
Proof.
  induction ms as [|[b m] ms IH]; intros fuel pre s st st' H Ht Hl.
  - inversion H; subst. destruct fuel; [cbn in Hl; lia|]. cbn [handshake_loop]. unfold raw. cbn [map concat].
    unfold bind at 1, lift at 1, pb_remaining, at_pos. cbn [pb_buf pb_pos]. rewrite !app_nil_r.
    rewrite usize_sub_ok by lia. rewrite Nat.sub_diag. cbn [Nat.eqb]. unfold ret. do 2 f_equal. now destruct s as [? ? ? ? []].
  - inversion H as [|? ? ? ? hh st1 ? ? Hr Hd Hp Hcb Htk]; subst.
    assert (Hb : 0 < length b). { destruct Hr as [(len & body & Hlen & _ & ->) _]. rewrite !app_length, Hlen. lia. }
    assert (Hraw : raw ((b, m) :: ms) = b ++ raw ms) by reflexivity. rewrite Hraw in *. rewrite app_length in Hl.
    destruct fuel; [lia|]. cbn [handshake_loop].
    unfold bind at 1, lift at 1, pb_remaining. unfold at_pos at 1 2. cbn [pb_buf pb_pos].
    rewrite usize_sub_ok by (rewrite !app_length; lia).
    destruct (Nat.eqb_spec (length (pre ++ (b ++ raw ms) ++ []) - length pre) 0) as [E|_]; [exfalso; rewrite !app_length in E; lia|].
    unfold bind at 1, get at 1. cbn [fst].
    replace (at_pos pre (b ++ raw ms) []) with (at_pos pre b (raw ms)) by (unfold at_pos; now rewrite app_nil_r).
    rewrite (read_message C (r_transcript (rd_ks s)) pre b (raw ms) hh Hp).
    unfold bind at 1, lift at 1. cbn [fst snd].
    unfold bind at 1, on_fst at 1, set_transcript, modify. cbn [fst snd].
    fold (with_tr s (r_transcript (rd_ks s) ++ b)).
    unfold bind at 1, call_cb. cbn [fst snd]. rewrite Hcb by (try exact Ht; reflexivity).
    replace (at_pos (pre ++ b) [] (raw ms)) with (at_pos (pre ++ b) (raw ms) []) by (unfold at_pos; now rewrite app_nil_r).
    rewrite (IH fuel (pre ++ b) (with_tr s (r_transcript (rd_ks s) ++ b)) st1 st'); [|exact Htk|exact Ht|lia].
    rewrite with_tr_tr. cbn [with_tr rd_ks r_with_transcript r_transcript]. now rewrite <- app_assoc.
Qed.

(** ** One record *)

(** The reader expects record number [n] under the key and IV, the transcript being [tr]. *)
Definition awaits (L : nat) (key iv t tr : bytes) (n : N) (rest : bytes) (s : rdst) : Prop :=
  ready s /\ length (rd_buf s) = L /\ stream (rd_rx s) = rest /\ length iv = iv_len C /\
  r_state (rd_ks s) = mk_kstate (Some t) n key iv /\ r_transcript (rd_ks s) = tr.

Lemma map_fst_split (l : list (bytes * smsg)) a b : map fst l = a ++ b ->
  exists l1 l2, l = l1 ++ l2 /\ map fst l1 = a /\ map fst l2 = b.
Proof. intros H. apply map_eq_app in H as (l1 & l2 & -> & H1 & H2). eauto. Qed.

Lemma record_fwd L key iv t tr n h f rest s st ms st' : crypto_ok C ->
  awaits L key iv t tr n (h ++ f ++ rest) s -> length f <= L ->
  carried C key iv n [(h, f)] (map fst ms) -> (n + protected_in [(h, f)] <= u64_max)%N ->
  takes t tr st ms st' ->
  exists rec r1 r2, rd_read C s = (Ok rec, r1) /\
    decrypt_record C (server_verify_cb C p) rec (r1, st) = (Ok tt, (r2, st')) /\
    awaits L key iv t (tr ++ raw ms) (n + protected_in [(h, f)]) rest r2.
Proof.
  intros HC (Hr & Hlen & Hstr & Hiv & Hst & Htr) Hfl Hcar Hn Htk.
  inversion Hcar as [|? ? ? ? ? Hf Hh Hnil|? ? m junk ? ? Hf Hh Hnil|? ? ? inner ms1 ? ms0 Hf Hh Ho Hun Hnil]; subst.
  - (* change_cipher_spec *)
    inversion Hnil as [? E1 E2| | |]. symmetry in E2. destruct ms; [|discriminate]. inversion Htk; subst.
    assert (Hd : sr_decode C h (place s (length f)) f (r_transcript (rd_ks s)) = Ok (SR_ChangeCipherSpec, r_transcript (rd_ks s))).
    { unfold sr_decode. rewrite (framed_length _ _ Hf). cbn [obind]. rewrite Nat.eqb_refl. cbn [negb].
      rewrite (proj2 (type_ok h ty_ccs CT_ChangeCipherSpec Hh eq_refl)). reflexivity. }
    destruct (read_fwd C s h f rest ty_ccs CT_ChangeCipherSpec _ _ Hr Hstr Hf Hh eq_refl Hfl Hd) as (r1 & Hrd & Hr1 & Hs1 & Hb1 & Hk1).
    exists SR_ChangeCipherSpec, r1, r1. split; [exact Hrd|]. split; [reflexivity|].
    assert (Hp0 : protected_in [(h, f)] = 0%N) by (unfold protected_in; destruct h; [discriminate|]; injection Hh as ->; reflexivity).
    rewrite Hp0, N.add_0_r. unfold raw. cbn [map concat]. rewrite app_nil_r.
    unfold awaits. rewrite Hk1. cbn [r_with_transcript r_state r_transcript]. auto 8.
  - (* in the clear *)
    inversion Hnil; subst. destruct ms as [|[b m0] ms]; [discriminate|].
    match goal with H : _ :: _ = map fst _ |- _ => injection H as Eb En; symmetry in En end.
    destruct ms; [|discriminate]. subst m.
    inversion Htk as [|? ? ? ? hh st1 ? ? Hra Hde Hp Hcb Htk']; subst. inversion Htk'; subst.
    destruct (read_fwd C s h (b ++ junk) rest ty_handshake CT_Handshake _ _ Hr Hstr Hf Hh eq_refl Hfl
      (decode_message h _ b junk _ _ _ eq_refl Hf Hh Hp)) as (r1 & Hrd & Hr1 & Hs1 & Hb1 & Hk1).
    exists (SR_Handshake (with_hash C (r_transcript (rd_ks s)) hh)), r1, r1. split; [exact Hrd|].
    split.
    { cbn [decrypt_record]. unfold call_cb. cbn [fst snd]. rewrite Hcb; [reflexivity| |]; rewrite Hk1; cbn [r_with_transcript r_state r_transcript]; [now rewrite Hst|reflexivity]. }
    assert (Hp0 : protected_in [(h, b ++ junk)] = 0%N) by (unfold protected_in; destruct h; [discriminate|]; injection Hh as ->; reflexivity).
    rewrite Hp0, N.add_0_r. unfold raw. cbn [map concat fst]. rewrite app_nil_r.
    unfold awaits. rewrite Hk1. cbn [r_with_transcript r_state r_transcript]. auto 8.
  - (* protected *)
    inversion Hnil; subst. match goal with H : _ ++ [] = map fst _ |- _ => rewrite app_nil_r in H; rename H into Em end. subst ms1.
    fold (raw ms) in *.
    assert (Hd : sr_decode C h (place s (length f)) f (r_transcript (rd_ks s)) =
      Ok (SR_AppData h (place s (length f)) (cb_wrap_with_pos f (length f)), r_transcript (rd_ks s))).
    { unfold sr_decode. rewrite (framed_length _ _ Hf). cbn [obind]. rewrite Nat.eqb_refl. cbn [negb].
      rewrite (proj2 (type_ok h ty_data CT_ApplicationData Hh eq_refl)). reflexivity. }
    destruct (read_fwd C s h f rest ty_data CT_ApplicationData _ _ Hr Hstr Hf Hh eq_refl Hfl Hd) as (r1 & Hrd & Hr1 & Hs1 & Hb1 & Hk1).
    assert (Hp1 : protected_in [(h, f)] = 1%N) by (unfold protected_in; destruct h; [discriminate|]; injection Hh as ->; reflexivity).
    rewrite Hp1 in *.
    assert (Hk1' : rd_ks r1 = rd_ks s) by (rewrite Hk1; unfold r_with_transcript; now destruct (rd_ks s)).
    pose proof (place_ok s (length f) Hfl) as Hpl.
    pose proof (decrypt_app C (server_verify_cb C p) h (place s (length f)) f r1 st HC) as Happ.
    rewrite Hk1', Hst in Happ. cbn [k_iv k_key k_counter] in Happ. specialize (Happ Hiv ltac:(lia)). cbv zeta in Happ.
    rewrite Ho, Hun in Happ. change (content_type_of (Byte.to_N ty_handshake)) with (Some CT_Handshake) in Happ. cbn iota beta in Happ.
    destruct Happ as [Hil Happ].
    set (sd := decrypted r1 (place s (length f)) f inner) in *.
    assert (Hsdk : rd_ks sd = rd_ks s) by exact Hk1'.
    assert (Hloop : handshake_loop C (server_verify_cb C p) (S (length (raw ms))) (pb_new (raw ms)) (sd, st) = (Ok tt, (with_tr sd (r_transcript (rd_ks s) ++ raw ms), st'))).
    { rewrite pb_new_at, <- Hsdk. apply (loop_fwd t); [rewrite Hsdk; exact Htk|rewrite Hsdk, Hst; reflexivity|lia]. }
    exists (SR_AppData h (place s (length f)) (cb_wrap_with_pos f (length f))), r1. eexists. split; [exact Hrd|]. split.
    { rewrite Happ. unfold dispatch, bind at 1. rewrite Hloop.
      unfold on_fst, rd_increment, bind at 1, get at 1. cbn [fst snd]. unfold bind, lift, put.
      cbn [with_tr rd_ks r_with_transcript r_state rd_buf rd_decoded rd_pending rd_rx]. rewrite Hsdk, Hst. unfold increment_counter. cbn [k_counter k_traffic k_key k_iv].
      rewrite (proj2 (N.ltb_lt _ _)) by lia. reflexivity. }
    unfold awaits. cbn [rd_buf rd_rx rd_ks r_with_state r_state r_transcript rd_pending rd_decoded].
    destruct (decrypted_facts r1 (place s (length f)) f inner ltac:(lia) ltac:(lia)) as (F1 & F2 & F3 & F4 & _). fold sd in F1, F2, F3, F4.
    destruct Hr1 as (R1 & R2 & R3).
    split; [|split; [congruence|]]; [|split; [congruence|]; auto].
    unfold ready. cbn [rd_pending rd_decoded rd_buf rd_rx]. rewrite F1, F2, F3, F4. auto.
Qed.
End Verify.

Lemma protected_in_app a b : protected_in (a ++ b) = (protected_in a + protected_in b)%N.
Proof. unfold protected_in. rewrite filter_app, app_length. lia. Qed.

Lemma carried_cons_split C key iv n r rs (ms : list (bytes * smsg)) : carried C key iv n (r :: rs) (map fst ms) ->
  exists ms1 ms2, ms = ms1 ++ ms2 /\ carried C key iv n [r] (map fst ms1) /\
    carried C key iv (n + protected_in [r]) rs (map fst ms2).
Proof.
  intros H. inversion H as [|? h f ? ? Hf Hh Hr|? h m junk ? ms0 Hf Hh Hr|? h f inner ms1 ? ms0 Hf Hh Ho Hun Hr]; subst.
  - exists [], ms. split; [reflexivity|]. split; [cbn; apply ca_ccs; auto; constructor|].
    assert (Hp0 : protected_in [(h, f)] = 0%N) by (unfold protected_in; destruct h; [discriminate|]; injection Hh as ->; reflexivity).
    now rewrite Hp0, N.add_0_r.
  - destruct ms as [|[b m0] ms]; [discriminate|]. match goal with E : _ :: _ = map fst _ |- _ => injection E as -> -> end.
    exists [(b, m0)], ms. split; [reflexivity|]. split; [cbn; apply ca_clear; auto; constructor|].
    assert (Hp0 : protected_in [(h, b ++ junk)] = 0%N) by (unfold protected_in; destruct h; [discriminate|]; injection Hh as ->; reflexivity).
    now rewrite Hp0, N.add_0_r.
  - match goal with E : _ ++ _ = map fst _ |- _ => symmetry in E; apply map_fst_split in E as (l1 & l2 & -> & <- & <-) end.
    exists l1, l2. split; [reflexivity|]. split.
    + rewrite <- (app_nil_r (map fst l1)). eapply ca_sealed; eauto. constructor.
    + assert (Hp1 : protected_in [(h, f)] = 1%N) by (unfold protected_in; destruct h; [discriminate|]; injection Hh as ->; reflexivity).
      now rewrite Hp1.
Qed.

Section Phases.
Context {V : Type} (C : crypto) (p : provider V) (cfg : tls_config).

Lemma verify_step L key iv t tr n h f rest c (hd : @hs_data V) ms s' h' : crypto_ok C ->
  awaits C L key iv t tr n (h ++ f ++ rest) (cn_rd c) -> length f <= L ->
  carried C key iv n [(h, f)] (map fst ms) -> (n + protected_in [(h, f)] <= u64_max)%N ->
  takes C p t tr (St_ServerVerify, hd) ms (s', h') ->
  exists r2, process C p cfg St_ServerVerify (c, hd) = (Ok s', (mk_conn r2 (cn_dec c) (cn_wh c) (cn_shared c) (cn_opened c), h')) /\
    awaits C L key iv t (tr ++ raw ms) (n + protected_in [(h, f)]) rest r2.
Proof.
  intros HC Haw Hl Hcar Hn Htk.
  destruct (record_fwd C p L key iv t tr n h f rest (cn_rd c) _ ms _ HC Haw Hl Hcar Hn Htk) as (rec & r1 & r2 & Hrd & Hdec & Haw2).
  exists r2. split; [|exact Haw2]. cbn [process]. unfold bind at 1, on_conn at 1, on_rd at 1. cbn [fst snd]. rewrite Hrd.
  apply hpe_fwd. unfold process_server_verify. cbn [cn_rd cn_dec cn_wh cn_shared cn_opened]. rewrite Hdec. reflexivity.
Qed.

Lemma takes_no_finished t tr s h ms st' : crypto_ok C -> takes C p t tr (s, h) ms st' -> no_finished ms -> fst st' = s.
Proof.
  intros HC Htk Hnf. destruct (absorb_state C p t tr _ ms st' HC (takes_absorb C p t tr _ ms st' Htk)) as (_ & _ & [(_ & H & _)|(bf & b & v & af & -> & _)]).
  - exact H.
  - exfalso. apply Hnf. exists (b, M_Finished v). split; [apply in_or_app; right; now left|exact I].
Qed.

Lemma flight_fwd L key iv t : crypto_ok C -> forall rs tr n rest c (h : @hs_data V) ms h1,
  awaits C L key iv t tr n (wire_of rs ++ rest) (cn_rd c) -> Forall (fun r => length (snd r) <= L) rs ->
  carried C key iv n rs (map fst ms) -> (n + protected_in rs <= u64_max)%N -> no_finished ms ->
  takes C p t tr (St_ServerVerify, h) ms (St_ServerVerify, h1) ->
  exists r2, goes C p cfg St_ServerVerify c h St_ServerVerify (mk_conn r2 (cn_dec c) (cn_wh c) (cn_shared c) (cn_opened c)) h1 /\
    awaits C L key iv t (tr ++ raw ms) (n + protected_in rs) rest r2.
Proof.
  intros HC. induction rs as [|[hd f] rs IH]; intros tr n rest c h ms h1 Haw Hl Hcar Hn Hnf Htk.
  - inversion Hcar as [? E1 E2| | |]. symmetry in E2. destruct ms; [|discriminate]. inversion Htk; subst.
    exists (cn_rd c). split; [replace (mk_conn _ _ _ _ _) with c by (now destruct c); constructor|].
    unfold protected_in, raw. cbn [filter length map concat]. rewrite N.add_0_r, app_nil_r. exact Haw.
  - apply carried_cons_split in Hcar as (ms1 & ms2 & -> & Hc1 & Hc2).
    apply takes_split in Htk as ([s1 hx] & Htk1 & Htk2).
    assert (Hnf1 : no_finished ms1) by (intros (m & Hm & Hx); apply Hnf; exists m; split; [apply in_or_app; now left|exact Hx]).
    assert (Hnf2 : no_finished ms2) by (intros (m & Hm & Hx); apply Hnf; exists m; split; [apply in_or_app; now right|exact Hx]).
    assert (E : s1 = St_ServerVerify) by (apply (takes_no_finished _ _ _ _ _ _ HC Htk1 Hnf1)). subst s1.
    change ((hd, f) :: rs) with ([(hd, f)] ++ rs) in Hn |- *. rewrite protected_in_app in *.
    inversion Hl as [|? ? Hl1 Hl2]; subst. cbn [snd] in Hl1.
    destruct (verify_step L key iv t tr n hd f (wire_of rs ++ rest) c h ms1 St_ServerVerify hx HC) as (r2 & Hp & Haw2); auto.
    { unfold wire_of in Haw. cbn [map concat fst snd] in Haw. rewrite <- !app_assoc in Haw. exact Haw. }
    { lia. }
    destruct (IH (tr ++ raw ms1) (n + protected_in [(hd, f)])%N rest (mk_conn r2 (cn_dec c) (cn_wh c) (cn_shared c) (cn_opened c)) hx ms2 h1) as (r3 & Hg & Haw3); auto.
    { lia. }
    cbn [cn_rd cn_dec cn_wh cn_shared cn_opened] in *.
    exists r3. split; [econstructor; [discriminate|exact Hp|exact Hg]|].
    rewrite N.add_assoc. unfold raw in *. now rewrite map_app, concat_app, app_assoc.
Qed.

(** ** The client's answer *)

Lemma encodes_fin v : encodes (enc_client_handshake C (CH_Finished (mk_fin v None))) (msg_wire (CH_Finished (mk_fin v None))) tt.
Proof.
  unfold enc_client_handshake. cbn [client_handshake_type msg_wire]. eapply encodes_bind; [apply encodes_enc_err, encodes_uint1|].
  apply encodes_vec3. apply encodes_enc_err, encodes_extend.
Qed.

Lemma encodes_cv v : encodes (enc_client_handshake C (CH_CertVerify v)) (msg_wire (CH_CertVerify v)) tt.
Proof.
  unfold enc_client_handshake. cbn [client_handshake_type msg_wire]. eapply encodes_bind; [apply encodes_enc_err, encodes_uint1|].
  apply encodes_vec3. unfold enc_certificate_verify. eapply encodes_bind; [apply encodes_uint2|].
  apply encodes_vec2, encodes_extend.
Qed.

Lemma encodes_x509 raw ctx ders : encodes (enc_client_handshake C (CH_Cert (mk_cert raw ctx (map CE_X509 ders)))) (msg_wire (CH_Cert (mk_cert raw ctx (map CE_X509 ders)))) tt.
Proof.
  unfold enc_client_handshake. cbn [client_handshake_type msg_wire ce_entries ce_context].
  eapply encodes_bind; [apply encodes_enc_err, encodes_uint1|].
  apply encodes_vec3. rewrite map_map, map_id. apply encodes_cert.
Qed.

Lemma not_hello_binder m e w : not_hello m -> has_binder (CR_Handshake m e) w.
Proof. intros Hm h e' E. injection E as -> ->. contradiction. Qed.

(** The connection can send [k] more records. *)
Definition can_send (L : nat) (k : N) (c : conn) : Prop :=
  idle C L c /\ tx_ok (wh_tx (cn_wh c)) /\ (k_counter (wst (cn_wh c)) + k <= u64_max)%N.

Lemma can_send_next L k r c msg c' : sends C L r c msg c' -> tx_ok (wh_tx (cn_wh c')) -> can_send L (k + 1) c -> can_send L k c'.
Proof.
  intros (_ & _ & _ & _ & _ & _ & Hk & _ & Hid & _) Htx (_ & _ & Hn). split; [exact Hid|]. split; [exact Htx|].
  unfold wst in *. rewrite Hk. cbn. lia.
Qed.

Lemma nh_fin v : not_hello (CH_Finished v).
Proof. exact I. Qed.
Lemma nh_cv v : not_hello (CH_CertVerify v).
Proof. exact I. Qed.
Lemma nh_cert v : not_hello (CH_Cert v).
Proof. exact I. Qed.

(** The reader did not read; the transport still works. *)
Definition kept (c c' : conn) : Prop := rd_rx (cn_rd c') = rd_rx (cn_rd c) /\ rd_buf (cn_rd c') = rd_buf (cn_rd c) /\ tx_ok (wh_tx (cn_wh c')).

Lemma sends_kept L r c msg c' c'' : sends C L r c msg c' -> kept c' c'' -> kept c c''.
Proof. intros (_ & _ & Hr & _) (K1 & K2 & K3). unfold kept. rewrite K1, K2, Hr. auto. Qed.

Lemma finished_fwd L c (h : @hs_data V) client tr v : crypto_ok C -> can_send L 1 c ->
  k_traffic (wst (cn_wh c)) = Some client -> hs_traffic h = Some tr ->
  (forall k, ks_shared k = cn_shared c -> r_transcript (ks_r k) = tr -> exists k3, initialize_master_secret C k = Ok k3) ->
  rfc_verify_data C client (tr_of c) = Some v -> length (fin_message v) + 22 <= L ->
  exists c' h', goes C p cfg St_ClientFinished c h St_ApplicationData c' h' /\ kept c c'.
Proof.
  intros HC (Hid & Htx & Hn) Ht Htr Hms Hv Hlen.
  destruct (C11_client_finished C (cn_keysched c) client HC Ht) as (vd & Hvd & Hcf & _).
  assert (vd = v) by (unfold tr_of in Hv; cbn [cn_keysched ks_r] in Hvd; congruence). subst vd.
  destruct (sends_fwd C L (CR_Handshake (CH_Finished (mk_fin v None)) true) c h HC Hid I (not_hello_binder _ _ _ (nh_fin _))) as (s & c1 & msg & c2 & Hw & Hresp & Hsd & Htx2).
  { split; [exact Hlen|apply encodes_fin]. }
  { exact Htx. }
  { lia. }
  destruct (Hms (mk_keysched (cn_shared c2) (wh_ks (cn_wh c2)) (mk_rks (r_state (rd_ks (cn_rd c2))) tr))) as [k3 Hk3].
  { cbn [ks_shared]. destruct Hsd as (_ & _ & _ & _ & E & _). exact E. }
  { reflexivity. }
  exists (cn_with_keysched c2 k3), (hs_set_traffic None h). split.
  - econstructor; [discriminate| |constructor]. cbn [process].
    unfold do_client_finished. unfold bind at 1. unfold bind at 1, get at 1. unfold bind at 1, lift at 1. cbn [fst snd].
    rewrite Hcf. cbn [omap_err]. unfold on_conn at 1. cbn [fst snd]. rewrite Hw.
    unfold bind at 1. rewrite Hresp.
    unfold client_finished_finalize. unfold bind at 1, get at 1. unfold bind at 1, mod_hs, modify. cbn [fst snd].
    unfold bind at 1, lift at 1. rewrite Htr. cbn [ok_or].
    unfold bind at 1, on_conn at 1, on_rd at 1, set_transcript, modify. cbn [fst snd].
    unfold bind at 1, on_conn at 1, on_ks at 1, cn_keysched. cbn [fst snd cn_rd cn_shared cn_wh rd_ks].
    unfold r_with_transcript. rewrite Hk3. reflexivity.
  - eapply sends_kept; [exact Hsd|]. split; [reflexivity|]. split; [reflexivity|exact Htx2].
Qed.

Lemma answer_unique client tr req ms1 ms2 : answer C p client tr req ms1 -> answer C p client tr req ms2 -> ms1 = ms2.
Proof.
  unfold answer. destruct req as [ctx|].
  - destruct (p_client_cert p).
    + intros (s1 & c1 & g1 & v1 & E1 & G1 & H1 & ->) (s2 & c2 & g2 & v2 & E2 & G2 & H2 & ->). rewrite E1 in E2. injection E2 as <- <-.
      rewrite G1 in G2. injection G2 as <-. congruence.
    + intros (v1 & H1 & ->) (v2 & H2 & ->). congruence.
  - intros (v1 & H1 & ->) (v2 & H2 & ->). congruence.
Qed.

Lemma cv_message_ok tr : crypto_ok C -> hash_len C <= 48 -> cv_client_message C tr = Ok (client_signs C tr).
Proof.
  intros HC Hl. unfold cv_client_message. cbv zeta. pose proof (ok_hash_len C HC tr) as Hh.
  rewrite (proj2 (Nat.ltb_ge _ _)); [reflexivity|].
  rewrite !app_length, repeat_length. change (length (lit "TLS 1.3, client CertificateVerify")) with 33. cbn [length]. lia.
Qed.

Lemma cert_fwd L c (h : @hs_data V) client ctx ms : crypto_ok C -> can_send L 3 c -> signature_fits C p (tr_of c) (Some ctx) ->
  k_traffic (wst (cn_wh c)) = Some client -> hs_certreq h = Some ctx ->
  (forall k, ks_shared k = cn_shared c -> r_transcript (ks_r k) = tr_of c -> exists k3, initialize_master_secret C k = Ok k3) ->
  answer C p client (tr_of c) (Some ctx) ms -> Forall (fun m => length m + 22 <= L) ms ->
  exists c' h', goes C p cfg St_ClientCert c h St_ApplicationData c' h' /\ kept c c'.
Proof.
  intros HC Hcs Hsf Ht Hcr Hms Hans Hlen. pose proof Hcs as (Hid & Htx & Hn).
  set (entries := match p_client_cert p with Some e => [e] | None => [] end).
  set (ders := own_certs p).
  assert (He : entries = map CE_X509 ders).
  { unfold entries, ders, own_certs. destruct Hsf as [->|[[d ->] _]]; reflexivity. }
  assert (Hwire : msg_wire (CH_Cert (mk_cert [] ctx entries)) = cert_message ctx ders).
  { rewrite He. unfold cert_message. cbn [msg_wire ce_context ce_entries]. unfold certificate_wire, plain, entries_wire. rewrite !map_map. reflexivity. }
  assert (Hhead : exists tl, ms = cert_message ctx ders :: tl).
  { unfold answer in Hans. destruct (p_client_cert p); [destruct Hans as (? & ? & ? & ? & _ & _ & _ & ->)|destruct Hans as (? & _ & ->)]; eexists; reflexivity. }
  destruct Hhead as (tl & ->). inversion Hlen as [|? ? Hl1 Hl2]; subst.
  destruct (sends_fwd C L (CR_Handshake (CH_Cert (mk_cert [] ctx entries)) true) c (hs_set_traffic (Some (tr_of c)) h) HC Hid I (not_hello_binder _ _ _ (nh_cert _))) as (s & c1 & msg & c2 & Hw & Hresp & Hsd & Htx2).
  { split; [rewrite Hwire; exact Hl1|]. rewrite He. apply encodes_x509. }
  { exact Htx. }
  { lia. }
  pose proof (can_send_next L 2 _ c msg c2 Hsd Htx2 Hcs) as Hcs2.
  destruct (sent_message C L _ c msg c2 (nh_cert _) Hsd) as (Em & _ & _ & Htr2 & Hsh2 & Hb2). rewrite Hwire in Em. subst msg.
  assert (Ht2 : k_traffic (wst (cn_wh c2)) = Some client) by (rewrite Hb2; exact Ht).
  assert (Hp1 : process C p cfg St_ClientCert (c, h) = (Ok (match p_client_cert p with Some _ => St_ClientCertVerify | None => St_ClientFinished end), (c2, hs_set_traffic (Some (tr_of c)) h))).
  { cbn [process]. unfold do_client_cert. unfold bind at 1. unfold bind at 1, get at 1. unfold bind at 1, mod_hs, modify. cbn [fst snd].
    unfold bind at 1, lift at 1. rewrite Hcr. cbn [ok_or]. unfold entries in Hw.
    destruct (p_client_cert p); (unfold bind at 1, on_conn at 1; cbn [fst snd]; unfold tr_of in *; rewrite Hw; unfold ret at 1; cbn [fst snd];
      unfold bind at 1; rewrite Hresp; reflexivity). }
  assert (Hms2 : forall k, ks_shared k = cn_shared c2 -> r_transcript (ks_r k) = tr_of c -> exists k3, initialize_master_secret C k = Ok k3)
    by (intros k Hk1 Hk2; apply Hms; congruence).
  unfold answer in Hans. fold ders in Hans. destruct (p_client_cert p) as [e|] eqn:Ecc.
  - destruct Hans as (sign & scheme & sg & v & Hsg & Hsi & Hv & Etl). cbv zeta in Hv, Etl. injection Etl as Etl.
    subst tl.
    inversion Hl2 as [|? ? Hl3 Hl4]; subst. inversion Hl4 as [|? ? Hl5 _]; subst.
    assert (Hcap : length sg <= p_sig_cap p) by (destruct Hsf as [?|(_ & _ & Hcap)]; [congruence|exact (Hcap _ _ Hsg _ Hsi)]).
    assert (H48 : hash_len C <= 48) by (destruct Hsf as [?|(_ & H48 & _)]; [congruence|exact H48]).
    pose proof Hcs2 as (Hid2 & Htx2' & Hn2).
    destruct (sends_fwd C L (CR_Handshake (CH_CertVerify (mk_cv scheme sg)) true) c2 (hs_set_traffic (Some (tr_of c)) h) HC Hid2 I (not_hello_binder _ _ _ (nh_cv _))) as (s3 & c3 & msg3 & c4 & Hw3 & Hresp3 & Hsd3 & Htx4).
    { split; [exact Hl3|apply encodes_cv]. }
    { exact Htx2. }
    { lia. }
    pose proof (can_send_next L 1 _ c2 msg3 c4 Hsd3 Htx4 Hcs2) as Hcs4.
    destruct (sent_message C L _ c2 msg3 c4 (nh_cv _) Hsd3) as (Em3 & _ & _ & Htr4 & Hsh4 & Hb4).
    change (msg_wire (CH_CertVerify (mk_cv scheme sg))) with (cv_message (sig_scheme_code scheme) sg) in Em3. subst msg3.
    assert (Hp2 : process C p cfg St_ClientCertVerify (c2, hs_set_traffic (Some (tr_of c)) h) = (Ok St_ClientFinished, (c4, hs_set_traffic (Some (tr_of c)) h))).
    { cbn [process]. unfold do_client_cert_verify. unfold bind at 1. unfold bind at 1, get at 1. cbn [fst snd]. rewrite Hsg.
      unfold bind at 1, lift at 1. fold (tr_of c2). rewrite cv_message_ok by assumption. rewrite Htr2, Hsi.
      rewrite (proj2 (Nat.ltb_ge _ _)) by exact Hcap.
      unfold bind at 1, on_conn at 1. cbn [fst snd]. rewrite Hw3. unfold ret at 1. cbn [fst snd]. unfold bind at 1. rewrite Hresp3. reflexivity. }
    destruct (finished_fwd L c4 (hs_set_traffic (Some (tr_of c)) h) client (tr_of c) v HC Hcs4) as (c' & h' & Hg & Hkept).
    { rewrite Hb4. exact Ht2. }
    { reflexivity. }
    { intros k Hk1 Hk2. apply Hms2; [congruence|exact Hk2]. }
    { rewrite Htr4, Htr2, <- app_assoc. exact Hv. }
    { exact Hl5. }
    exists c', h'. split; [|exact (sends_kept _ _ _ _ _ _ Hsd (sends_kept _ _ _ _ _ _ Hsd3 Hkept))].
    econstructor; [discriminate|exact Hp1|]. econstructor; [discriminate|exact Hp2|exact Hg].
  - destruct Hans as (v & Hv & Etl). injection Etl as ->.
    inversion Hl2 as [|? ? Hl3 _]; subst.
    destruct (finished_fwd L c2 (hs_set_traffic (Some (tr_of c)) h) client (tr_of c) v HC) as (c' & h' & Hg & Hkept); auto.
    { destruct Hcs2 as (A & B & D). split; [exact A|]. split; [exact B|]. lia. }
    { rewrite Htr2. exact Hv. }
    exists c', h'. split; [|exact (sends_kept _ _ _ _ _ _ Hsd Hkept)]. econstructor; [discriminate|exact Hp1|exact Hg].
Qed.

Lemma cert_sent L c (h : @hs_data V) ctx d : crypto_ok C -> can_send L 3 c -> p_client_cert p = Some (CE_X509 d) ->
  hs_certreq h = Some ctx -> length (cert_message ctx [d]) + 22 <= L ->
  exists c2, process C p cfg St_ClientCert (c, h) = (Ok St_ClientCertVerify, (c2, hs_set_traffic (Some (tr_of c)) h)) /\
    sends C L (CR_Handshake (CH_Cert (mk_cert [] ctx [CE_X509 d])) true) c (cert_message ctx [d]) c2 /\ tx_ok (wh_tx (cn_wh c2)).
Proof.
  intros HC Hcs Hcc Hcr Hlen. pose proof Hcs as (Hid & Htx & Hn).
  assert (Hwire : msg_wire (CH_Cert (mk_cert [] ctx [CE_X509 d])) = cert_message ctx [d]) by reflexivity.
  destruct (sends_fwd C L (CR_Handshake (CH_Cert (mk_cert [] ctx [CE_X509 d])) true) c (hs_set_traffic (Some (tr_of c)) h) HC Hid I (not_hello_binder _ _ _ (nh_cert _))) as (s & c1 & msg & c2 & Hw & Hresp & Hsd & Htx2).
  { split; [rewrite Hwire; exact Hlen|]. exact (encodes_x509 [] ctx [d]). }
  { exact Htx. }
  { lia. }
  destruct (sent_message C L _ c msg c2 (nh_cert _) Hsd) as (Em & _). rewrite Hwire in Em. subst msg.
  exists c2. split; [|split; [exact Hsd|exact Htx2]].
  cbn [process]. unfold do_client_cert. unfold bind at 1. unfold bind at 1, get at 1. unfold bind at 1, mod_hs, modify. cbn [fst snd].
  unfold bind at 1, lift at 1. rewrite Hcr. cbn [ok_or]. rewrite Hcc.
  unfold bind at 1, on_conn at 1; cbn [fst snd]; unfold tr_of in *; rewrite Hw; unfold ret at 1; cbn [fst snd];
      unfold bind at 1; rewrite Hresp; reflexivity.
Qed.
End Phases.

(** ** The whole handshake *)

Lemma last_finished a b1 v1 c a' b2 v2 c' : a ++ (b1, M_Finished v1) :: c = a' ++ (b2, M_Finished v2) :: c' ->
  no_finished c -> no_finished c' -> a = a' /\ b1 = b2 /\ v1 = v2 /\ c = c'.
Proof.
  intros E H H'. apply app_eq_app in E as (l & [[-> E]|[-> E]]); destruct l as [|x l]; cbn [app] in E.
  - injection E as -> -> ->. now rewrite app_nil_r.
  - exfalso. injection E as <- ->. apply H'. exists (b1, M_Finished v1). split; [apply in_or_app; right; now left|exact I].
  - injection E as -> -> ->. now rewrite app_nil_r.
  - exfalso. injection E as <- ->. apply H. exists (b2, M_Finished v2). split; [apply in_or_app; right; now left|exact I].
Qed.

Section Whole.
Context {V : Type} (C : crypto) (p : provider V) (cfg : tls_config).

Lemma goes_idle L s c h s' c' h' : crypto_ok C -> idle C L c -> goes C p cfg s c h s' c' h' -> idle C L c'.
Proof.
  intros HC Hid H. induction H as [s c h|s c h s1 c1 h1 s2 c2 h2 Hs Hp Hr IH]; [exact Hid|].
  apply (process_pstep C p cfg L) in Hp; auto. apply IH. eapply pstep_idle; eauto.
Qed.

(** Successful steps and then one that does not succeed. *)
Lemma goes_stops L fuel s c h s1 c1 h1 o c2 h2 : crypto_ok C -> idle C L c -> between (cn_rd c) ->
  goes C p cfg s c h s1 c1 h1 -> s1 <> St_ApplicationData ->
  process C p cfg s1 (c1, h1) = (o, (c2, h2)) -> (forall s2, o <> Ok s2) ->
  5 * TermProofs.rank s + rx_size (rd_rx (cn_rd c)) < 5 * fuel ->
  open_loop C p cfg fuel s (c, h) = (obind o (fun _ => Ok tt), (c2, h2)).
Proof.
  intros HC Hid Hb H Hs1 Hp1 Ho. revert fuel Hid Hb.
  induction H as [s c h|s c h s1 c1 h1 s3 c3 h3 Hs Hp Hr IH]; intros fuel Hid Hb Hf; (destruct fuel as [|fuel]; [lia|]);
    rewrite TermProofs.open_loop_round by assumption; unfold bind.
  - rewrite Hp1. destruct o as [s2|e|z| |]; try reflexivity. exfalso. exact (Ho s2 eq_refl).
  - rewrite Hp. apply (process_pstep C p cfg L) in Hp; auto.
    pose proof (pstep_advances C p cfg L _ _ _ _ _ _ Hb Hp).
    apply IH; auto; [|eapply pstep_between; eauto|lia].
    eapply pstep_idle; eauto.
Qed.

(** The hello depends on the configuration and the provider only. *)
Lemma hello_fwd wbuf tx : crypto_ok C -> length (p_random p) = 32 ->
  hello_size cfg (length (c_pub C (p_secret p))) (hash_len C) <= length wbuf -> tx_ok tx ->
  exists hello k1, initialize_early_secret C (ks_new C) (option_map fst (cfg_psk cfg)) = Ok k1 /\
  forall rbuf rx c0 (h : @hs_data V), cn_new C rbuf wbuf rx tx = Ok c0 ->
  exists c1, process C p cfg St_ClientHello (c0, h) = (Ok St_ServerHello, (c1, hs_set_secret (Some (p_secret p)) h)) /\
    sends C (length wbuf) (CR_Handshake (CH_Hello (mk_ch cfg (p_random p) (p_secret p))) false) (cn_with_keysched c0 k1) hello c1 /\
    tx_ok (wh_tx (cn_wh c1)).
Proof.
  intros HC Hrnd Hsz Htx. set (psk := option_map fst (cfg_psk cfg)). set (ch := mk_ch cfg (p_random p) (p_secret p)).
  destruct (C08_key_schedule C psk [] [] [] HC) as (k1 & Hk1 & _ & _ & Htr1 & _).
  destruct (ie_binder C _ _ _ Hk1) as [[bk Hbk] Hst].
  destruct (PropHello.hello_record C ch (ks_w k1) [] bk [] HC ltac:(destruct (ok_sizes C HC); lia) (fun _ => Hbk)) as (hello & binders & Hcase & _).
  assert (Hm : hello_msg C ch (ks_w k1) [] hello).
  { unfold hello_msg. destruct (cfg_psk (ch_config ch)) as [[k ids]|]; [|exact (proj1 Hcase)].
    destruct Hcase as (v & Hv & _ & -> & ->). eauto 8. }
  exists hello, k1. split; [exact Hk1|]. intros rbuf rx c0 h Hnew.
  destruct (cn_new_idle C rbuf wbuf rx tx c0 Hnew) as (Hid & _ & _ & Htx0 & _ & Hrd0 & Hks0 & _).
  set (c1 := cn_with_keysched c0 k1).
  assert (Hid1 : idle C (length wbuf) c1).
  { destruct Hid as [A B]. split; [exact A|]. unfold wst, c1. cbn [cn_with_keysched cn_wh wh_with_ks wh_ks]. rewrite Hst. cbn. apply repeat_length. }
  destruct (sends_fwd (V:=V) C (length wbuf) (CR_Handshake (CH_Hello ch) false) c1 h HC Hid1 eq_refl) as (s & c2 & msg & c3 & Hw & Hresp & Hsd & Htx3).
  { intros hh e E Hp. exists bk. exact Hbk. }
  { split; [exact Hrnd|exact Hsz]. }
  { unfold c1. cbn [cn_with_keysched cn_wh wh_with_ks wh_tx]. now rewrite Htx0. }
  { unfold wst, c1. cbn [cn_with_keysched cn_wh wh_with_ks wh_ks]. rewrite Hst. reflexivity. }
  assert (msg = hello).
  { destruct Hsd as (Hpl & _). cbn [payload_of] in Hpl. unfold c1, tr_of in Hpl. cbn [cn_with_keysched cn_wh wh_with_ks wh_ks cn_rd rd_with_ks rd_ks] in Hpl.
    rewrite Htr1 in Hpl. unfold hello_msg in Hpl, Hm. destruct (cfg_psk (ch_config ch)) as [[k ids]|]; [|congruence].
    destruct Hpl as (bk1 & v1 & P1 & P2 & ->). destruct Hm as (bk2 & v2 & M1 & M2 & ->). congruence. }
  subst msg. exists c3. split; [|auto].
  cbn [process]. unfold do_client_hello. unfold bind at 1, bind at 1, on_conn at 1, on_ks at 1. cbn [fst snd]. rewrite Hks0. fold psk. rewrite Hk1. fold c1 ch.
  unfold bind at 1, on_conn at 1. cbn [fst snd]. rewrite Hw. unfold bind at 1, mod_hs, modify. cbn [fst snd]. unfold ret at 1.
  unfold bind at 1. rewrite Hresp. reflexivity.
Qed.

(** The client after a flight it can follow: it is about to answer. *)
Definition reached (wbuf rbuf : bytes) (tx : txst) (x : exchange) (rest : bytes) (c0 : conn) (v0 : V) (s : hs_state) (c : conn) (h : @hs_data V) : Prop :=
  goes C p cfg St_ClientHello c0 (hs_new v0) s c h /\ can_send C (length wbuf) 3 c /\
  tr_of c = x_hellos x ++ raw (x_msgs x) /\
  wst (cn_wh c) = mk_kstate (Some (x_client x)) 0 (x_ckey x) (x_civ x) /\
  log_of (cn_wh c) = tx_log tx ++ goes_out (hello_record (x_hello x)) /\
  ready (cn_rd c) /\ stream (rd_rx (cn_rd c)) = rest /\ length (rd_buf (cn_rd c)) = length rbuf /\
  match answered x with
  | None => s = St_ClientFinished /\ hs_traffic h = Some (key_messages x)
  | Some ctx => s = St_ClientCert /\ hs_certreq h = Some ctx /\ key_messages x = tr_of c
  end /\
  forall k, ks_shared k = cn_shared c -> r_transcript (ks_r k) = key_messages x ->
    exists k3, initialize_master_secret C k = Ok k3 /\
      session_keys C (option_map fst (cfg_psk cfg)) x "c ap traffic" (k_key (w_state (ks_w k3))) (k_iv (w_state (ks_w k3))) /\
      session_keys C (option_map fst (cfg_psk cfg)) x "s ap traffic" (k_key (r_state (ks_r k3))) (k_iv (r_state (ks_r k3))).

(** After a ServerHello that the client takes. *)
Definition hs_begun (v0 : V) : @hs_data V := hs_set_secret None (hs_set_secret (Some (p_secret p)) (hs_new v0)).

Definition keyed (wbuf rbuf : bytes) (tx : txst) (x : exchange) (trm rest : bytes) (c0 : conn) (v0 : V) (c : conn) : Prop :=
  goes C p cfg St_ClientHello c0 (hs_new v0) St_ServerVerify c (hs_begun v0) /\
  awaits C (length rbuf) (x_skey x) (x_siv x) (x_server x) (x_hellos x) 0 rest (cn_rd c) /\
  wst (cn_wh c) = mk_kstate (Some (x_client x)) 0 (x_ckey x) (x_civ x) /\
  log_of (cn_wh c) = tx_log tx ++ goes_out (hello_record (x_hello x)) /\ tx_ok (wh_tx (cn_wh c)) /\
  forall k, ks_shared k = cn_shared c -> r_transcript (ks_r k) = trm ->
    exists k3 msec sw sr, rfc_master C (option_map fst (cfg_psk cfg)) (x_dhe x) = Some msec /\ initialize_master_secret C k = Ok k3 /\
      rfc_derive_secret C msec "c ap traffic" trm = Some sw /\ rfc_key C sw = Some (k_key (w_state (ks_w k3))) /\ rfc_iv C sw = Some (k_iv (w_state (ks_w k3))) /\
      rfc_derive_secret C msec "s ap traffic" trm = Some sr /\ rfc_key C sr = Some (k_key (r_state (ks_r k3))) /\ rfc_iv C sr = Some (k_iv (r_state (ks_r k3))).

(** After the ClientHello [hello]. *)
Definition greeted (hello wbuf rbuf : bytes) (rx : list rx_event) (tx : txst) (c0 : conn) (v0 : V) (c : conn) : Prop :=
  goes C p cfg St_ClientHello c0 (hs_new v0) St_ServerHello c (hs_set_secret (Some (p_secret p)) (hs_new v0)) /\
  idle C (length wbuf) c /\ rd_pending (cn_rd c) = 0 /\ rd_decoded (cn_rd c) = 0 /\ rd_buf (cn_rd c) = rbuf /\ rd_rx (cn_rd c) = rx /\
  k_counter (wst (cn_wh c)) = 1%N /\ tr_of c = hello /\
  log_of (cn_wh c) = tx_log tx ++ goes_out (hello_record hello) /\ tx_ok (wh_tx (cn_wh c)).

Lemma keys_goes wbuf tx : crypto_ok C -> length (p_random p) = 32 ->
  hello_size cfg (length (c_pub C (p_secret p))) (hash_len C) <= length wbuf -> tx_ok tx ->
  exists hello, forall v v0, told p cfg v v0 ->
    (forall rbuf rx c0, cn_new C rbuf wbuf rx tx = Ok c0 ->
       exists evs, sent_log (snd (cn_open C p cfg v c0)) = tx_log tx ++ goes_out (hello_record hello) ++ evs) /\
    (forall rbuf rx c0, cn_new C rbuf wbuf rx tx = Ok c0 -> exists c1, greeted hello wbuf rbuf rx tx c0 v0 c1) /\
    forall rbuf rx c0 x h0 junk rest trm, cn_new C rbuf wbuf rx tx = Ok c0 -> chunked rx -> x_hello x = hello ->
      stream rx = h0 ++ (x_shello x ++ junk) ++ rest -> framed h0 (x_shello x ++ junk) -> hd_error h0 = Some ty_handshake ->
      understood C (x_shello x) (M_ServerHello (x_suite x) (x_items x)) -> share_of (x_items x) (x_group x) (x_share x) ->
      length (x_shello x ++ junk) <= length rbuf -> secrets_ok C (option_map fst (cfg_psk cfg)) (p_secret p) x ->
      exists c, keyed wbuf rbuf tx x trm rest c0 v0 c.
Proof.
  intros HC Hrnd Hsz Htx.
  destruct (hello_fwd wbuf tx HC Hrnd Hsz Htx) as (hello & k1 & Hk1 & Hfwd). exists hello. intros v v0 Htold.
  assert (Hhost : host_step p cfg v = (Ok tt, v0)).
  { unfold host_step, told in *. destruct (cfg_server_name cfg), (p_has_verifier p); congruence. }
  assert (Hlog : forall rbuf rx c0 c1, cn_new C rbuf wbuf rx tx = Ok c0 ->
    sends C (length wbuf) (CR_Handshake (CH_Hello (mk_ch cfg (p_random p) (p_secret p))) false) (cn_with_keysched c0 k1) hello c1 ->
    log_of (cn_wh c1) = tx_log tx ++ goes_out (hello_record hello)).
  { intros rbuf rx c0 c1 Hnew (_ & Hl & _). destruct (cn_new_idle C rbuf wbuf rx tx c0 Hnew) as (_ & _ & _ & Htx0 & _).
    rewrite Hl. unfold rec_wire, log_of. cbn [cr_header rh_is_encrypted plain_type cn_with_keysched cn_wh wh_with_ks wh_tx]. rewrite Htx0. reflexivity. }
  split.
  { intros rbuf rx c0 Hnew. destruct (Hfwd rbuf rx c0 (hs_new v0) Hnew) as (c1 & Hp & Hsd & _).
    unfold cn_open. fold (host_step p cfg v). rewrite Hhost. unfold bind at 1, lift at 1.
    change (8 + rx_size (rd_rx (cn_rd c0))) with (S (7 + rx_size (rd_rx (cn_rd c0)))).
    rewrite TermProofs.open_loop_round by discriminate. unfold bind at 1. rewrite Hp.
    destruct (open_loop C p cfg _ _ _) as [o [c2 h2]] eqn:El.
    pose proof Hsd as (_ & _ & _ & _ & _ & _ & _ & _ & Hid1 & _).
    destruct (open_loop_out C p cfg (length wbuf) HC _ _ _ _ _ _ Hid1 El) as (evs & He & _).
    exists evs. rewrite app_assoc, <- (Hlog _ _ _ _ Hnew Hsd). cbn [fst] in He. rewrite <- He.
    destruct o; reflexivity. }
  split.
  { intros rbuf rx c0 Hnew. destruct (Hfwd rbuf rx c0 (hs_new v0) Hnew) as (c1 & Hp & Hsd & Htx1).
    destruct (cn_new_idle C rbuf wbuf rx tx c0 Hnew) as (_ & _ & _ & _ & _ & Hrd0 & _).
    pose proof (Hlog _ _ _ _ Hnew Hsd) as Hl1. pose proof Hsd as (_ & _ & Hrd1 & _ & _ & _ & Hks1 & _ & Hid1 & _).
    destruct (C08_key_schedule C (option_map fst (cfg_psk cfg)) [] [] [] HC) as (k1' & Hk1' & _ & _ & Htr1 & _). assert (k1' = k1) by congruence. subst k1'.
    destruct (ie_binder C _ _ _ Hk1) as [_ Hst].
    exists c1. split; [econstructor; [discriminate|exact Hp|constructor]|]. split; [exact Hid1|].
    rewrite Hrd1. cbn [cn_with_keysched cn_rd rd_with_ks rd_pending rd_decoded rd_buf rd_rx]. rewrite Hrd0. cbn [rd_new rd_pending rd_decoded rd_buf rd_rx].
    repeat (split; [reflexivity|]). split.
    { unfold wst. rewrite Hks1. cbn [w_with_state w_state bump k_counter]. change (wst (cn_wh (cn_with_keysched c0 k1))) with (w_state (ks_w k1)). rewrite Hst. reflexivity. }
    split; [|split; [exact Hl1|exact Htx1]].
    unfold tr_of. rewrite Hrd1. cbn [cn_with_keysched cn_rd rd_with_ks rd_ks r_with_transcript r_transcript tr_after]. unfold tr_of. cbn. now rewrite Htr1. }
  intros rbuf rx c0 x h0 junk rest trm Hnew Hch Hhello Hw Hf0 Hh0 Hus Hshare Hlen0 Hsec.
  destruct (cn_new_idle C rbuf wbuf rx tx c0 Hnew) as (Hid0 & _ & _ & Htx0 & _ & Hrd0 & Hks0 & _).
  set (psk := option_map fst (cfg_psk cfg)) in *.
  destruct (Hfwd rbuf rx c0 (hs_new v0) Hnew) as (c1 & Hp1 & Hsd & Htx1).
  pose proof (Hlog _ _ _ _ Hnew Hsd) as Hlog1.
  pose proof Hsd as (_ & _ & Hrd1 & _ & Hsh1 & _).
  assert (Hrd1' : cn_rd c1 = rd_new rbuf rx (mk_rks (r_state (ks_r k1)) hello)).
  { rewrite Hrd1. cbn [cn_with_keysched cn_rd rd_with_ks tr_after]. rewrite Hrd0. unfold rd_new, rd_with_ks, r_with_transcript, tr_of. cbn.
    destruct (C08_key_schedule C psk [] [] [] HC) as (k1' & Hk1' & _ & _ & Htr1 & _).
    assert (k1' = k1) by congruence. subst k1'. rewrite Htr1. reflexivity. }
  subst hello.
  destruct Hsec as (Hdh & hs & Hhs & S1 & S2 & S3 & S4 & S5 & S6).
  destruct (server_hello_fwd C p cfg c1 (hs_set_secret (Some (p_secret p)) (hs_new v0)) h0 (x_shello x) junk rest
    (x_suite x) (x_items x) (x_group x) (x_share x) (p_secret p) (x_dhe x)) as (r1 & Hr1 & Hstr1 & Hbuf1 & Hkr1 & Hp2); auto.
  { rewrite Hrd1'. split; [reflexivity|]. split; [cbn; lia|exact Hch]. }
  { rewrite Hrd1'. cbn [rd_new rd_rx]. rewrite Hw. now rewrite <- !app_assoc. }
  { rewrite Hrd1'. exact Hlen0. }
  assert (Htrh : r_transcript (rd_ks r1) = x_hellos x).
  { rewrite Hkr1. unfold tr_of. rewrite Hrd1'. reflexivity. }
  destruct (C08_key_schedule C psk (x_dhe x) (x_hellos x) trm HC) as (k1' & Hk1' & _ & _ & _ & Hphase).
  assert (k1' = k1) by congruence. subst k1'. clear Hk1'.
  destruct (Hphase (mk_keysched (cn_shared c1) (wh_ks (cn_wh c1)) (rd_ks r1))) as (hs' & k2 & Hhs' & Hk2 & Hw2 & Hr2 & Htr3 & Hphase2);
    [cbn [ks_shared]; rewrite Hsh1; reflexivity|exact Htrh|]. clear Hphase.
  assert (hs' = hs) by congruence. subst hs'.
  destruct Hw2 as (client & ckey & civ & D1 & D2 & D3 & D4 & D5 & D6 & D7).
  destruct Hr2 as (server & skey & siv & F1 & F2 & F3 & F4 & F5 & F6 & F7).
  assert (client = x_client x) by congruence. assert (server = x_server x) by congruence. subst client server.
  assert (Eck : ckey = x_ckey x) by congruence. assert (Eci : civ = x_civ x) by congruence.
  assert (Esk : skey = x_skey x) by congruence. assert (Esi : siv = x_siv x) by congruence. rewrite Eck in *; rewrite Eci in *; rewrite Esk in *; rewrite Esi in *; clear Eck Eci Esk Esi.
  destruct (ihs_iv C _ _ _ HC Hk2) as (_ & _ & Liv2 & _).
  specialize (Hp2 k2 Hk2).
  set (c2 := mk_conn (rd_with_ks r1 (ks_r k2)) (cn_dec c1) (wh_with_ks (cn_wh c1) (ks_w k2)) (ks_shared k2) (cn_opened c1)) in *.
  set (hd2 := hs_begun v0) in *.
  assert (Haw : awaits C (length rbuf) (x_skey x) (x_siv x) (x_server x) (x_hellos x) 0 rest (cn_rd c2)).
  { unfold awaits, c2. cbn [cn_rd rd_with_ks rd_buf rd_rx rd_ks]. split; [|split; [|split; [|split; [|split]]]].
    - destruct Hr1 as (R1 & R2 & R3). split; [exact R1|]. split; [exact R2|exact R3].
    - rewrite Hbuf1, Hrd1'. reflexivity.
    - exact Hstr1.
    - congruence.
    - destruct (r_state (ks_r k2)) as [kt kc kk ki]. cbn in F4, F5, F6, F7. now subst.
    - exact Htr3. }
  exists c2. split.
  { econstructor; [discriminate|exact Hp1|]. econstructor; [discriminate|exact Hp2|constructor]. }
  split; [exact Haw|]. split.
  { change (wst (cn_wh c2)) with (w_state (ks_w k2)). destruct (w_state (ks_w k2)) as [kt kc kk ki]. cbn in D4, D5, D6, D7. now subst. }
  split; [exact Hlog1|]. split; [exact Htx1|].
  intros k Hka Hkb. destruct (Hphase2 k Hka Hkb) as (msec & k3 & Hmsec & Hk3 & Hwk & Hrk & _).
  destruct Hwk as (sw & kw & iw & W1 & W2 & W3 & _ & W5 & W6 & _). destruct Hrk as (sr & kr & ir & R1 & R2 & R3 & _ & R5 & R6 & _).
  exists k3, msec, sw, sr. rewrite W5, W6, R5, R6. auto 10.
Qed.

Lemma hello_goes wbuf tx : crypto_ok C -> length (p_random p) = 32 ->
  hello_size cfg (length (c_pub C (p_secret p))) (hash_len C) <= length wbuf -> tx_ok tx ->
  exists hello, forall v v0, told p cfg v v0 ->
    (forall rbuf rx c0, cn_new C rbuf wbuf rx tx = Ok c0 ->
       exists evs, sent_log (snd (cn_open C p cfg v c0)) = tx_log tx ++ goes_out (hello_record hello) ++ evs) /\
    forall rbuf rx c0 x rest v1, cn_new C rbuf wbuf rx tx = Ok c0 -> chunked rx ->
      x_hello x = hello -> whole_flight C (length rbuf) (stream rx) x rest ->
      secrets_ok C (option_map fst (cfg_psk cfg)) (p_secret p) x -> finishes C x ->
      (p_has_verifier p = true -> accepts_all p (x_hellos x) (x_msgs x) v0 v1) ->
      exists s c h, reached wbuf rbuf tx x rest c0 v0 s c h.
Proof.
  intros HC Hrnd Hsz Htx.
  destruct (keys_goes wbuf tx HC Hrnd Hsz Htx) as (hello & Hh). exists hello. intros v v0 Htold.
  destruct (Hh v v0 Htold) as (Hsent & _ & Hgo). split; [exact Hsent|].
  intros rbuf rx c0 x rest v1 Hnew Hch Hhello Hfl Hsec Hfin Hacc.
  destruct (cn_new_idle C rbuf wbuf rx tx c0 Hnew) as (Hid0 & _).
  destruct Hfl as (h0 & junk & rs & [hl fl] & ms1 & ms2 & Hw & Hf0 & Hh0 & Hus & Hshare & Hmsgs & Hc1 & Hc2 & Hnf1 & Hund & Hlen & Hcnt).
  inversion Hlen as [|? ? Hlen0 Hlenr]; subst. cbn [snd] in Hlen0. apply Forall_app in Hlenr as [Hlenr Hlenl].
  inversion Hlenl as [|? ? Hlenl' _]; subst. cbn [snd] in Hlenl'.
  destruct (Hgo rbuf rx c0 x h0 junk (wire_of rs ++ wire_of [(hl, fl)] ++ rest) (key_messages x) Hnew Hch eq_refl) as (c2 & Hg2 & Haw & Hw2 & Hlog1 & Htx2 & Hkey); auto.
  { rewrite Hw. unfold wire_of. cbn [map concat fst snd]. rewrite map_app, concat_app. cbn [map concat fst snd]. now rewrite <- !app_assoc. }
  destruct Hfin as [Hnfa Hfin].
  destruct (takes_fwd C p (x_server x) HC (x_msgs x) (x_hellos x) St_ServerVerify (hs_begun v0) v1 Hund Hfin Hacc) as ([s2 h2] & Htk).
  pose proof Htk as Htk'. rewrite Hmsgs in Htk'. apply takes_split in Htk' as ([sm hm] & Htk1 & Htk2).
  assert (E : sm = St_ServerVerify) by (apply (takes_no_finished C p _ _ _ _ _ _ HC Htk1 Hnf1)). subst sm.
  rewrite protected_in_app in Hcnt. change (2 ^ 64)%N with 18446744073709551616%N in Hcnt.
  assert (Hu64 : u64_max = 18446744073709551615%N) by reflexivity.
  destruct (flight_fwd C p cfg (length rbuf) (x_skey x) (x_siv x) (x_server x) HC rs (x_hellos x) 0%N (wire_of [(hl, fl)] ++ rest) c2 (hs_begun v0) ms1 hm Haw Hlenr Hc1)
    as (r3 & Hg3 & Haw3); [lia|exact Hnf1|exact Htk1|].
  set (c3 := mk_conn r3 (cn_dec c2) (cn_wh c2) (cn_shared c2) (cn_opened c2)) in *.
  destruct (verify_step C p cfg (length rbuf) (x_skey x) (x_siv x) (x_server x) (x_hellos x ++ raw ms1) (0 + protected_in rs)%N hl fl rest c3 hm ms2 s2 h2 HC)
    as (r4 & Hp4 & Haw4).
  { unfold wire_of in Haw3. cbn [map concat fst snd] in Haw3. rewrite app_nil_r, <- app_assoc in Haw3. exact Haw3. }
  { exact Hlenl'. }
  { exact Hc2. }
  { lia. }
  { exact Htk2. }
  set (c4 := mk_conn r4 (cn_dec c3) (cn_wh c3) (cn_shared c3) (cn_opened c3)) in *.
  assert (Hg4 : goes C p cfg St_ClientHello c0 (hs_new v0) s2 c4 h2).
  { eapply goes_trans; [exact Hg2|]. eapply goes_trans; [exact Hg3|]. econstructor; [discriminate|exact Hp4|constructor]. }
  pose proof (goes_idle (length wbuf) _ _ _ _ _ _ HC Hid0 Hg4) as Hid4.
  assert (Htr4 : tr_of c4 = x_hellos x ++ raw (x_msgs x)).
  { unfold tr_of, c4. cbn [cn_rd]. destruct Haw4 as (_ & _ & _ & _ & _ & ->). rewrite Hmsgs. unfold raw. now rewrite map_app, concat_app, app_assoc. }
  assert (Hst4 : wst (cn_wh c4) = mk_kstate (Some (x_client x)) 0 (x_ckey x) (x_civ x)) by exact Hw2.
  assert (Hcs4 : can_send C (length wbuf) 3 c4).
  { split; [exact Hid4|]. split; [exact Htx2|]. rewrite Hst4. cbn [k_counter]. lia. }
  destruct (absorb_state C p (x_server x) _ _ _ _ HC (takes_absorb C p _ _ _ _ _ Htk)) as (_ & Hcr & Hst).
  cbn [fst snd hs_begun hs_set_secret hs_certreq hs_new hs_traffic] in Hcr, Hst.
  destruct Hst as [(Hbad & _)|(before & b & vd & after & Ems & Hnfb & Hst)].
  { exfalso. apply Hbad. exists (x_finished x, M_Finished (x_verify x)). split; [apply in_or_app; right; now left|exact I]. }
  pose proof Ems as Ems'. unfold x_msgs in Ems'. apply last_finished in Ems' as (E1 & E2 & E3 & E4); [|exact Hnfa|exact Hnfb]. subst before b vd after.
  exists s2, c4, h2. split; [exact Hg4|]. split; [exact Hcs4|]. split; [exact Htr4|].
  split; [exact Hst4|].
  split. { exact Hlog1. }
  destruct Haw4 as (A1 & A2 & A3 & _). split; [exact A1|]. split; [exact A3|]. split; [exact A2|]. split.
  { unfold key_messages, answered. destruct (requests (x_before x)) as [|rq0 rq] eqn:Erq.
    - destruct Hst as [-> Htraf]. auto.
    - subst s2.
      assert (Hne : exists ctx, hd_error (rev (requests (x_msgs x))) = Some ctx /\ hs_certreq h2 = Some ctx).
      { destruct (rev (requests (x_msgs x))) as [|q qs] eqn:Er; [|exists q; split; [reflexivity|exact Hcr]].
        exfalso. apply (f_equal (@length _)) in Er. rewrite rev_length in Er. unfold requests, x_msgs in Er, Erq.
        rewrite map_app, concat_app, app_length, Erq in Er. cbn [length] in Er. lia. }
      destruct Hne as (ctx & Ehd & Ecr). rewrite Ehd. split; [reflexivity|]. split; [exact Ecr|]. now rewrite Htr4. }
  intros k Hka Hkb. destruct (Hkey k Hka Hkb) as (k3 & msec & sw & sr & Hmsec & Hk3 & W1 & W2 & W3 & R1 & R2 & R3).
  exists k3. split; [exact Hk3|]. split; [exists msec, sw|exists msec, sr]; auto.
Qed.

Lemma open_goes L v v0 rbuf wbuf rx tx c0 c h : crypto_ok C -> cn_new C rbuf wbuf rx tx = Ok c0 -> L = length wbuf -> told p cfg v v0 ->
  goes C p cfg St_ClientHello c0 (hs_new v0) St_ApplicationData c h -> cn_open C p cfg v c0 = (Ok tt, set_opened c).
Proof.
  intros HC Hnew -> Htold Hg. destruct (cn_new_idle C rbuf wbuf rx tx c0 Hnew) as (Hid0 & _ & _ & _ & _ & Hrd0 & _).
  assert (Hhost : host_step p cfg v = (Ok tt, v0)).
  { unfold host_step, told in *. destruct (cfg_server_name cfg), (p_has_verifier p); congruence. }
  unfold cn_open. fold (host_step p cfg v). rewrite Hhost. unfold bind at 1, lift at 1.
  assert (Hb0 : between (cn_rd c0)) by (rewrite Hrd0; split; [unfold rd_wf; cbn; lia|reflexivity]).
  rewrite (goes_open C p cfg (length wbuf) (8 + rx_size (rd_rx (cn_rd c0))) _ _ _ _ _ HC Hid0 Hb0 Hg); [reflexivity|].
  cbn [TermProofs.rank]. lia.
Qed.

Lemma open_stops v v0 rbuf wbuf rx tx c0 s c h e c' h' : crypto_ok C -> cn_new C rbuf wbuf rx tx = Ok c0 -> told p cfg v v0 ->
  goes C p cfg St_ClientHello c0 (hs_new v0) s c h -> s <> St_ApplicationData ->
  process C p cfg s (c, h) = (Err e, (c', h')) -> cn_open C p cfg v c0 = (Err e, c').
Proof.
  intros HC Hnew Htold Hg Hs Hp. destruct (cn_new_idle C rbuf wbuf rx tx c0 Hnew) as (Hid0 & _ & _ & _ & _ & Hrd0 & _).
  assert (Hhost : host_step p cfg v = (Ok tt, v0)).
  { unfold host_step, told in *. destruct (cfg_server_name cfg), (p_has_verifier p); congruence. }
  unfold cn_open. fold (host_step p cfg v). rewrite Hhost. unfold bind at 1, lift at 1.
  assert (Hb0 : between (cn_rd c0)) by (rewrite Hrd0; split; [unfold rd_wf; cbn; lia|reflexivity]).
  rewrite (goes_stops (length wbuf) (8 + rx_size (rd_rx (cn_rd c0))) _ _ _ _ _ _ _ _ _ HC Hid0 Hb0 Hg Hs Hp); [reflexivity|discriminate|].
  cbn [TermProofs.rank]. lia.
Qed.

(** The client has a certificate to show but cannot sign. *)
Theorem signer_fails wbuf tx v v0 : crypto_ok C -> length (p_random p) = 32 ->
  hello_size cfg (length (c_pub C (p_secret p))) (hash_len C) <= length wbuf -> tx_ok tx -> told p cfg v v0 ->
  exists hello,
    (forall rbuf rx c0, cn_new C rbuf wbuf rx tx = Ok c0 ->
       exists evs, sent_log (snd (cn_open C p cfg v c0)) = tx_log tx ++ goes_out (hello_record hello) ++ evs) /\
    forall rbuf rx c0 x rest v1 ctx d e, cn_new C rbuf wbuf rx tx = Ok c0 -> chunked rx ->
      x_hello x = hello -> whole_flight C (length rbuf) (stream rx) x rest ->
      secrets_ok C (option_map fst (cfg_psk cfg)) (p_secret p) x -> finishes C x ->
      (p_has_verifier p = true -> accepts_all p (x_hellos x) (x_msgs x) v0 v1) ->
      answered x = Some ctx -> p_client_cert p = Some (CE_X509 d) -> p_signer p = Err e ->
      length (cert_message ctx [d]) + 22 <= length wbuf ->
      exists c, cn_open C p cfg v c0 = (Err e, c) /\
        sent_log c = tx_log tx ++ goes_out (hello_record hello) ++
          goes_out (rfc_record C (x_ckey x) (x_civ x) 0 ty_handshake (cert_message ctx [d]) 0) ++
          goes_out (rfc_record C (x_ckey x) (x_civ x) 1 ty_alert (uint 1 1 ++ uint 1 0) 0).
Proof.
  intros HC Hrnd Hsz Htx Htold.
  destruct (hello_goes wbuf tx HC Hrnd Hsz Htx) as (hello & Hh). exists hello. destruct (Hh v v0 Htold) as [Hsent Hgo]. split; [exact Hsent|].
  intros rbuf rx c0 x rest v1 ctx d e Hnew Hch Hhello Hfl Hsec Hfin Hacc Hreq Hcc Hsg Hlen.
  destruct (Hgo rbuf rx c0 x rest v1 Hnew Hch Hhello Hfl Hsec Hfin Hacc) as (s2 & c4 & h2 & Hg4 & Hcs4 & Htr4 & Hst4 & Hlog4 & _ & _ & _ & Hst & _).
  rewrite Hreq in Hst. destruct Hst as (-> & Hcr & _).
  destruct (cert_sent C p cfg (length wbuf) c4 h2 ctx d HC Hcs4 Hcc Hcr Hlen) as (c5 & Hp1 & Hsd & Htx5).
  destruct (sent_message C (length wbuf) _ c4 _ c5 (nh_cert _) Hsd) as (_ & Hl5 & _ & _ & _ & Hb5).
  pose proof (can_send_next C (length wbuf) 2 _ c4 _ c5 Hsd Htx5 Hcs4) as Hcs5.
  destruct Hcs5 as (Hid5 & _ & Hn5).
  destruct (sends_fwd C (length wbuf) (CR_Alert AL_Warning AD_CloseNotify true) c5 (hs_set_traffic (Some (tr_of c4)) h2) HC Hid5 I) as (sb & c6 & msg & c7 & Hw & Hresp & Hsd7 & Htx7).
  { intros ? ? [=]. }
  { cbn [room_for]. unfold cert_message in Hlen. rewrite app_length, uint_length in Hlen. unfold vec in Hlen at 1. rewrite app_length, uint_length in Hlen. lia. }
  { exact Htx5. }
  { lia. }
  assert (Hp2 : process C p cfg St_ClientCertVerify (c5, hs_set_traffic (Some (tr_of c4)) h2) = (Err e, (c7, hs_set_traffic (Some (tr_of c4)) h2))).
  { cbn [process]. unfold do_client_cert_verify. unfold bind at 1. unfold bind at 1, get at 1. cbn [fst snd]. rewrite Hsg.
    unfold bind at 1, on_conn at 1. cbn [fst snd]. rewrite Hw. unfold ret at 1. cbn [fst snd]. unfold bind at 1. rewrite Hresp. reflexivity. }
  exists c7. split.
  - eapply (open_stops v v0 rbuf wbuf rx tx c0 St_ClientCertVerify); eauto; [|discriminate].
    eapply goes_trans; [exact Hg4|]. econstructor; [discriminate|exact Hp1|constructor].
  - destruct Hsd7 as (Hpl & Hl7 & _). cbn [payload_of] in Hpl. subst msg. unfold sent_log. fold (log_of (cn_wh c7)).
    rewrite Hl7, Hl5, Hlog4, Hhello, Hb5, Hst4. unfold goes_out. rewrite <- !app_assoc. reflexivity.
Qed.

Theorem handshake_succeeds wbuf tx v v0 : crypto_ok C -> length (p_random p) = 32 ->
  hello_size cfg (length (c_pub C (p_secret p))) (hash_len C) <= length wbuf -> tx_ok tx -> told p cfg v v0 ->
  exists hello,
    (forall rbuf rx c0, cn_new C rbuf wbuf rx tx = Ok c0 ->
       exists evs, sent_log (snd (cn_open C p cfg v c0)) = tx_log tx ++ goes_out (hello_record hello) ++ evs) /\
    forall rbuf rx c0 x rest v1 ms, cn_new C rbuf wbuf rx tx = Ok c0 -> chunked rx ->
      x_hello x = hello -> whole_flight C (length rbuf) (stream rx) x rest ->
      secrets_ok C (option_map fst (cfg_psk cfg)) (p_secret p) x -> finishes C x ->
      (p_has_verifier p = true -> accepts_all p (x_hellos x) (x_msgs x) v0 v1) ->
      signature_fits C p (x_hellos x ++ raw (x_msgs x)) (answered x) ->
      answer C p (x_client x) (x_hellos x ++ raw (x_msgs x)) (answered x) ms ->
      Forall (fun m => length m + 22 <= length wbuf) ms ->
      exists c, cn_open C p cfg v c0 = (Ok tt, c) /\
        sent_log c = tx_log tx ++ goes_out (hello_record hello) ++ protected_flight C (x_ckey x) (x_civ x) 0 ms /\
        incoming c = rest /\ steady c /\ room c = length rbuf /\ transport_succeeds c /\
        session_keys C (option_map fst (cfg_psk cfg)) x "c ap traffic" (write_key c) (write_iv c) /\
        session_keys C (option_map fst (cfg_psk cfg)) x "s ap traffic" (read_key c) (read_iv c).
Proof.
  intros HC Hrnd Hsz Htx Htold.
  destruct (hello_goes wbuf tx HC Hrnd Hsz Htx) as (hello & Hh). exists hello. destruct (Hh v v0 Htold) as [Hsent Hgo]. split; [exact Hsent|].
  intros rbuf rx c0 x rest v1 ms Hnew Hch Hhello Hfl Hsec Hfin Hacc Hsf Hans Hlens.
  destruct (Hgo rbuf rx c0 x rest v1 Hnew Hch Hhello Hfl Hsec Hfin Hacc) as (s2 & c4 & h2 & Hg4 & Hcs4 & Htr4 & Hst4 & Hlog4 & Hrd4 & Hstr4 & Hbuf4 & Hst & Hkm).
  assert (Htraf4 : k_traffic (wst (cn_wh c4)) = Some (x_client x)) by now rewrite Hst4.
  pose proof (proj1 Hcs4) as Hid4.
  assert (Hkm' : forall k, ks_shared k = cn_shared c4 -> r_transcript (ks_r k) = key_messages x -> exists k3, initialize_master_secret C k = Ok k3).
  { intros k Hka Hkb. destruct (Hkm k Hka Hkb) as (k3 & Hk3 & _). eauto. }
  assert (Hdone : exists c5 h5 ms', goes C p cfg s2 c4 h2 St_ApplicationData c5 h5 /\ kept c4 c5 /\
     answer C p (x_client x) (x_hellos x ++ raw (x_msgs x)) (answered x) ms' /\ answers C ms' (key_messages x) c4 c5).
  { destruct (answered x) as [ctx|].
    - destruct Hst as (-> & Ecr & Ekm). rewrite <- Htr4 in Hans. rewrite <- Htr4 in Hsf. rewrite Ekm in *.
      destruct (cert_fwd C p cfg (length wbuf) c4 h2 (x_client x) ctx ms HC Hcs4 Hsf Htraf4 Ecr) as (c5 & h5 & Hg5 & Hkept); auto.
      destruct (client_phase C p cfg (length wbuf) (x_client x) c4 h2 c5 h5 HC (goes_hrun C p cfg _ _ _ _ _ _ HC Hid4 Hg5) Htraf4) as (ctx' & ms' & Hctx & Hansw & Hans' & _).
      assert (ctx' = ctx) by congruence. subst ctx'.
      exists c5, h5, ms'. split; [exact Hg5|]. split; [exact Hkept|]. rewrite <- Htr4. split; [exact Hansw|exact Hans'].
    - destruct Hst as [-> Htraf]. unfold answer in Hans. destruct Hans as (vf & Hvf & ->). inversion Hlens as [|? ? Hlf _]; subst.
      destruct (finished_fwd C p cfg (length wbuf) c4 h2 (x_client x) (key_messages x) vf HC) as (c5 & h5 & Hg5 & Hkept); auto.
      { destruct Hcs4 as (A & B & D). split; [exact A|]. split; [exact B|]. lia. }
      { rewrite Htr4. exact Hvf. }
      destruct (client_finished_phase C p cfg (length wbuf) (x_client x) c4 h2 c5 h5 HC (goes_hrun C p cfg _ _ _ _ _ _ HC Hid4 Hg5) Htraf4) as (vf' & tr0 & Hvf' & Htr0 & Hans & _).
      assert (tr0 = key_messages x) by congruence. subst tr0.
      exists c5, h5, [fin_message vf']. split; [exact Hg5|]. split; [exact Hkept|]. split; [|exact Hans]. exists vf'. split; [|reflexivity]. rewrite <- Htr4. exact Hvf'. }
  destruct Hdone as (c5 & h5 & ms' & Hg5 & (Hkx & Hkb & Hkt) & Hansw & Hlog5 & Hrx5 & k & k3 & K1 & K2 & K3 & K4 & K5).
  assert (ms' = ms) by (eapply answer_unique; eauto). subst ms'.
  destruct (Hkm k K1 K2) as (k3' & Hk3' & Hsk1 & Hsk2). assert (k3' = k3) by congruence. subst k3'.
  exists (set_opened c5). split; [|split; [|split; [|split; [|split; [|split; [|split]]]]]].
  - eapply open_goes; eauto. eapply goes_trans; eauto.
  - unfold sent_log, set_opened. cbn [cn_wh]. unfold log_of in *. rewrite Hlog5, Hst4, Hlog4, Hhello, <- app_assoc. reflexivity.
  - unfold incoming, set_opened. cbn [cn_rd]. now rewrite Hrx5.
  - unfold steady, set_opened. cbn [cn_rd]. rewrite Hkx. apply Hrd4.
  - unfold room, set_opened. cbn [cn_rd]. now rewrite Hkb.
  - exact Hkt.
  - unfold write_key, write_iv, set_opened. cbn [cn_wh]. rewrite K4. exact Hsk1.
  - unfold read_key, read_iv, set_opened. cbn [cn_rd]. rewrite K5. exact Hsk2.
Qed.
End Whole.
