(** * C70: a connection object serves one handshake *)
From Coq Require Import String List NArith Arith Bool Lia ZArith.
From Coq.Strings Require Import Byte.
From Coq Require Import ZifyBool ZifyNat ZifyN.
From Verif Require Import Base ParseBuffer Buffer Codes Extensions Crypto KeySchedule Config Handshake Record WriteBuffer
  Transport RecordReader ReadBuffer Connection Api BaseProofs ParseProofs SpecWire SpecKeys SpecRecord SpecRead
  KeyProofs RecordProofs SpecSend SendProofs SpecHello HsWrite HsProofs ConnProofs FrameProofs DecryptProofs FlagProofs ReadProofs
  HelloProofs RecvProofs SpecHandshake FlightProofs AcceptProofs SpecComplete OpenProofs SpecAgree AgreeProofs SpecReopen ReopenProofs SpecSession PropSession
  Toy ToyRun.
Import ListNotations.
Local Open Scope list_scope.

Lemma used_marked C : crypto_ok C -> forall c, used C c -> marked C c.
Proof.
  intros HC c H. induction H as [V p cfg v rbuf wbuf rx tx c0 o c Hn Ho Hl|V p cfg v c o c' Hu IH Ho|o c r c' Hu IH Hs].
  - destruct (cn_new_idle C rbuf wbuf rx tx c0 Hn) as (Hid & _ & _ & Htx & _ & Hrd & _).
    apply (first_marked C HC p cfg (length wbuf) v c0 o c Hid); [rewrite Hrd; unfold rd_wf; cbn; lia|exact Ho|].
    unfold sent_log, log_of in *. rewrite Htx. exact Hl.
  - pose proof (open_marked C HC p cfg v c IH) as H. rewrite Ho in H. exact H.
  - pose proof (step_marked C o c IH) as H. rewrite Hs in H. exact H.
Qed.

Section Again.
Context {V : Type} (C : crypto) (p : provider V) (cfg : tls_config).

(** What a successful [open] verified, whatever was in the transcript before. *)
Lemma open_again v c c' : crypto_ok C -> marked C c -> at_rest c -> cn_open C p cfg v c = (Ok tt, c') ->
  exists x, reopened C c c' x /\ rfc_verify_data C (x_server x) (tr_of c ++ confirmed x) = Some (x_verify x).
Proof.
  intros HC (_ & Hiv & Hwf) (Hp0 & Hh0 & Hr0) Hopen.
  set (L := length (wb_buf (wh_wb (cn_wh c)))).
  assert (Hid : idle C L c) by (split; [split; [reflexivity|auto]|exact Hiv]).
  destruct (open_ok C p cfg L v c tt c' HC Hid Hopen) as (v0 & cz & hz & Hhost & Hrun & ->).
  (* ClientHello *)
  inversion Hrun as [|s cx hx s1 c1 h1 c2 h2 Hp1 Hr1]. subst s cx hx c2 h2. clear Hrun.
  inversion Hp1 as [cx hx k1 hello cx' Hearly Hsend E1 E2 E3 E4 E5 E6| | | | |]. subst cx hx s1 cx' h1. clear Hp1.
  destruct Hsend as (_ & Hlog1 & Hrd1 & _ & Hsh1 & _).
  unfold rec_wire in Hlog1. cbn [cr_header rh_is_encrypted plain_type] in Hlog1.
  (* ServerHello *)
  inversion Hr1 as [|s cx hx s1 c2 h2 c3 h3 Hp2 Hr2]. subst s cx hx c3 h3. clear Hr1.
  inversion Hp2 as [|cx hx r1 exts secret dhe k2 Hread Hsec Hdhe Hhk X1 X2 X3 X4 X5 X6| | | |]. subst cx hx s1 c2 h2. clear Hp2.
  assert (Hb0 : between (cn_rd c1)) by (rewrite Hrd1; split; [exact Hwf|exact Hr0]).
  destruct (server_hello_record C (cn_rd c1) r1 exts Hb0 Hread) as (h0 & shello & junk & suite & items & Hstr & Hb1 & Hfr & Hh & Hra & Hblk & Hks1 & Hlf0 & Hbl1).
  assert (Hrx0 : rd_rx (cn_rd c1) = rd_rx (cn_rd c)) by (rewrite Hrd1; reflexivity).
  rewrite Hrx0 in Hstr.
  assert (Htr1 : r_transcript (rd_ks (cn_rd c1)) = tr_of c ++ hello).
  { rewrite Hrd1. cbn [rd_with_ks rd_ks r_with_transcript r_transcript tr_after]. unfold tr_of. cbn [cn_with_keysched cn_rd rd_with_ks rd_ks].
    unfold initialize_early_secret in Hearly. apply obind_ok in Hearly as (bk & _ & Hearly).
    apply obind_ok in Hearly as (b & _ & Hearly). apply obind_ok in Hearly as (sh & _ & Hearly). injection Hearly as <-. reflexivity. }
  unfold sh_shared_secret in Hdhe. destruct (sh_key_share exts) as [[g share]|] eqn:Eks; [|discriminate].
  pose proof (share_of_block items exts g share Hblk Eks) as Hshare.
  set (trh := tr_of c ++ hello ++ shello).
  assert (Htr2 : r_transcript (rd_ks r1) = trh) by (rewrite Hks1; cbn [r_with_transcript r_transcript]; rewrite Htr1; unfold trh; now rewrite app_assoc).
  pose proof (ihs_transcript C _ _ _ Hhk) as Htr3. cbn [ks_r] in Htr3. rewrite Htr2 in Htr3.
  destruct (ihs_iv C _ _ _ HC Hhk) as (Liv1 & _ & Liv2 & F7).
  assert (F4 : (exists server, k_traffic (r_state (ks_r k2)) = Some server) /\ exists client, k_traffic (w_state (ks_w k2)) = Some client).
  { unfold initialize_handshake_secret, calculate_traffic_secrets in Hhk. cbn [ks_shared ks_w ks_r] in Hhk.
    apply obind_ok in Hhk as (k0 & H1 & H2). apply obind_ok in H1 as (a & Ha & H1). apply obind_ok in H1 as (b & Hb & H1). injection H1 as <-.
    apply obind_ok in H2 as (sh & _ & H2). injection H2 as <-. cbn [ks_r ks_w r_state w_state].
    destruct (calculate_traffic_secret_spec C (shared_initialize C (cn_shared c1) dhe) _ "s hs traffic" (r_transcript (rd_ks r1)) HC eq_refl ltac:(cbn; lia))
      as (s2 & k2' & i2 & _ & _ & _ & E2 & _). rewrite E2 in Hb.
    destruct (calculate_traffic_secret_spec C (shared_initialize C (cn_shared c1) dhe) _ "c hs traffic" (r_transcript (rd_ks r1)) HC eq_refl ltac:(cbn; lia))
      as (s3 & k3' & i3 & _ & _ & _ & E3 & _). rewrite E3 in Ha.
    split; [exists s2; injection Hb as <-|exists s3; injection Ha as <-]; reflexivity. }
  destruct F4 as [[server F4] [client D4]].
  (* the server's flight *)
  apply (verify_phase C p cfg L server HC) in Hr2;
    [|cbn [cn_rd]; destruct Hb1 as [B1 B2]; split; [exact B1|exact B2]|exact Liv2|exact F4|].
  2:{ unfold rkey. cbn [cn_rd rd_with_ks rd_ks]. rewrite F7. unfold u64_max. lia. }
  destruct Hr2 as (rs & r & ms1 & ms2 & s2 & c2 & h2 & Hr3 & Hs2 & Hstr2 & Hb2 & Hcar1 & Hcar2 & Hnf1 & Hlens & Hcnt & Habs & Htr4 & Hwh2 & Hshd2).
  unfold rkey in Hcar1, Hcar2, Hcnt. cbn [cn_rd rd_with_ks rd_ks rd_rx rd_buf cn_wh cn_shared wh_with_ks] in Hcar1, Hcar2, Hcnt, Hlens, Hstr2, Hwh2, Hshd2.
  rewrite F7 in Hcar1, Hcar2. rewrite F7 in Hcnt. cbn [N.add] in Hcar2, Hcnt.
  remember (ms1 ++ ms2) as msgs eqn:Esplit.
  unfold tr_of in Habs, Htr4. cbn [cn_rd rd_with_ks rd_ks] in Habs, Htr4. rewrite Htr3 in Habs, Htr4.
  destruct (absorb_reads C p server trh _ msgs _ HC Habs) as (Hreads & Hfin & _ & _).
  destruct (absorb_state C p server trh _ msgs _ HC Habs) as (_ & _ & Hst). cbn [fst snd hs_set_secret hs_certreq hs_v hs_new hs_traffic] in *.
  destruct Hst as [(_ & Hbad & _)|(before & b & vd & after & Emsgs & Hnf & Hst)]; [contradiction|]. rewrite Emsgs in *. clear msgs Emsgs.
  set (x := mk_exchange hello shello suite items (named_group_code g) share before b vd after dhe [] server [] []
              (k_key (r_state (ks_r k2))) (k_iv (r_state (ks_r k2)))).
  exists x. split.
  2:{ pose proof (Hfin before b vd after eq_refl) as Hv. unfold confirmed, x_hellos. cbn [x_server x_hello x_shello x_before x_verify x].
      unfold trh in Hv. rewrite <- !app_assoc in *. exact Hv. }
  split.
  { exists h0, junk, rs, r, ms1, ms2. cbn [x_shello x_suite x_items x_group x_share x_skey x_siv x].
    assert (Hbuf : length (rd_buf (cn_rd c1)) = length (rd_buf (cn_rd c))) by (rewrite Hrd1; reflexivity).
    assert (Hrest : rd_rx (cn_rd cz) = rd_rx (cn_rd c2)).
    { assert (Htrafc : k_traffic (wst (cn_wh c2)) = Some client) by (rewrite Hwh2; exact D4).
      destruct (requests before) as [|r0 rq].
      - destruct Hst as [-> _]. destruct (client_finished_phase C p cfg L client c2 h2 cz hz HC Hr3 Htrafc) as (_ & _ & _ & _ & (_ & E & _) & _). exact E.
      - subst s2. destruct (client_phase C p cfg L client c2 h2 cz hz HC Hr3 Htrafc) as (_ & _ & _ & _ & (_ & E & _) & _). exact E. }
    split; [|repeat (split; [assumption || congruence|]); split; [constructor; [cbn [snd]; congruence|]; rewrite Hbl1, Hbuf in Hlens; exact Hlens|]].
    2:{ unfold u64_max in Hcnt. change (2 ^ 64)%N with 18446744073709551616%N. lia. }
    unfold incoming, set_opened. cbn [cn_rd]. unfold wire_of in *. cbn [map concat fst snd].
    rewrite Hstr, Hstr2, Hrest, <- !app_assoc. reflexivity. }
  destruct (hrun_log C p cfg L _ _ _ _ _ Hr3) as [evs Hevs]. exists evs.
  unfold sent_log, set_opened. cbn [cn_wh]. unfold log_of in *. rewrite Hevs, Hwh2. cbn [wh_with_ks wh_tx]. rewrite Hlog1.
  cbn [cn_with_keysched cn_wh wh_with_ks wh_tx]. rewrite <- app_assoc. reflexivity.
Qed.
End Again.

(** Whatever became of the first [open], once it has sent its ClientHello no other [open] on the same
    object completes with a server that computes its Finished as RFC 8446 has it: if one does complete,
    then for every such server the values of the connection and of the handshake give two different
    inputs of the hash, or of the HMAC, with the same result. *)
Theorem C70_one_handshake : forall C V (p : provider V) cfg v c c', crypto_ok C ->
  used C c -> at_rest c -> cn_open C p cfg v c = (Ok tt, c') ->
  exists x, reopened C c c' x /\
    forall y, same_messages x y -> finishes C y -> same_hash_after C (left_over c) y \/ same_hmac_after C (left_over c) x y.
Proof.
  intros C V p cfg v c c' HC Hu Hr Ho. pose proof (used_marked C HC c Hu) as Hm.
  destruct (open_again C p cfg v c c' HC Hm Hr Ho) as (x & Hx & Hv). exists x. split; [exact Hx|].
  intros y (Y1 & Y2 & Y3 & Y4) [_ Hf]. specialize (Hf (x_before y) (x_finished y) (x_verify y) (x_after y) eq_refl).
  assert (Hc : confirmed x = confirmed y) by (unfold confirmed, x_hellos; congruence).
  change (x_hellos y ++ raw (x_before y)) with (confirmed y) in Hf. change (tr_of c) with (left_over c) in Hv. rewrite Hc, <- Y4 in Hv.
  unfold rfc_verify_data in Hv, Hf.
  destruct (rfc_expand_label C (x_server x) "finished" [] (hash_len C)) as [k|] eqn:Ek; [|discriminate].
  destruct (rfc_expand_label C (x_server y) "finished" [] (hash_len C)) as [k'|] eqn:Ek'; [|discriminate].
  destruct (list_eq_dec Byte.byte_eq_dec (c_hash C (left_over c ++ confirmed y)) (c_hash C (confirmed y))) as [E|E].
  - left. split; [exact (proj1 Hm)|exact E].
  - right. exists k, k'. repeat split; try assumption; congruence.
Qed.

(** Until then every [open] of the same object starts from the same state: the one that fails before it
    sends anything, because the verifier refuses the name of the server, changes nothing. *)
Theorem C70_refused_name : forall C V (p : provider V) cfg v c n e v', p_has_verifier p = true -> cfg_server_name cfg = Some n ->
  p_set_hostname p n v = (Err e, v') -> cn_open C p cfg v c = (Err e, c).
Proof.
  intros C V p cfg v c n e v' H1 H2 H3. unfold cn_open. rewrite H1, H2, H3. reflexivity.
Qed.

(** Called while a record is being filled - data written and not flushed, a message that did not fit -
    [open] fails and sends nothing. *)
Theorem C70_half_written : forall C V (p : provider V) cfg v c o c', wb_hdr (wh_wb (cn_wh c)) <> None ->
  cn_open C p cfg v c = (o, c') -> o <> Ok tt /\ sent_log c' = sent_log c.
Proof.
  intros C V p cfg v c o c' Hh H. unfold cn_open in H. destruct (match p_has_verifier p, _ with true, Some n => _ | _, _ => _ end) as [o0 v'].
  unfold bind at 1, lift at 1 in H. destruct o0 as [[]|e|x| |]; try (apply pair_equal_spec in H as [<- <-]; split; [discriminate|reflexivity]).
  change (8 + rx_size (rd_rx (cn_rd c))) with (S (7 + rx_size (rd_rx (cn_rd c)))) in H. cbn [open_loop] in H. unfold bind at 1 in H. cbn [process] in H.
  unfold bind at 1 in H. unfold do_client_hello in H. unfold bind at 1, on_conn at 1, on_ks in H. cbn [fst snd] in H.
  destruct (initialize_early_secret C (cn_keysched c) _) as [k1|e|x| |]; try (apply pair_equal_spec in H as [<- <-]; split; [discriminate|reflexivity]).
  cbv zeta in H. unfold bind at 1, on_conn at 1 in H. cbn [fst snd] in H.
  unfold cn_write_record in H. unfold bind at 1, get at 1, bind at 1, on_wh, on_wb in H. cbn [cn_with_keysched cn_wh wh_with_ks wh_wb] in H.
  unfold wb_write_record in H. unfold bind at 1, get at 1 in H. destruct (wb_hdr (wh_wb (cn_wh c))); [|contradiction].
  unfold fail in H. apply pair_equal_spec in H as [<- <-]. split; [discriminate|reflexivity].
Qed.

(** ** The flag *)

(** After an [open] that failed - whatever the reason - an object that had a session still takes data to
    send: all of it, if it fits. *)
Theorem C70_flag_refuted : forall C V (p : provider V) cfg v c o c' b, crypto_ok C ->
  used C c -> session C c true -> cn_open C p cfg v c = (o, c') -> o <> Ok tt -> at_rest c' ->
  133 + length b < length (wb_buf (wh_wb (cn_wh c'))) ->
  fst (step C (OpWrite b) c') = Ok (VCount (length b)).
Proof.
  intros C V p cfg v c o c' b HC Hu Hs Ho Hn (Hp & Hh & _) Hl.
  pose proof (used_marked C HC c' (us_open C V p cfg v c o c' Hu Ho)) as (_ & Hiv & _).
  assert (Hop : cn_opened c' = true).
  { pose proof (session_flag C c' _ (se_open C V p cfg v c true o c' Hs Ho)) as E. now destruct o. }
  set (L := length (wb_buf (wh_wb (cn_wh c')))) in *.
  assert (Hsd : sending C L (cn_wh c') None) by (split; [lia|]; split; [exact Hiv|]; split; [reflexivity|auto]).
  cbn [step]. unfold cn_write. unfold bind, get, on_wh. rewrite Hop.
  destruct (write_eval C L (cn_wh c') None b HC Hsd) as [(_ & bb & E & _)|(E & _)];
    unfold accepts_n in *; cbn [content app length] in *; rewrite Nat.min_l in E by lia.
  - rewrite E. reflexivity.
  - rewrite firstn_all in E. lia.
Qed.

(** ** A server that refuses, then an honest one *)

Definition refusal : bytes := [x15; x03; x03; x00; x02; x02; x28].
Definition refused_conn (more : list rx_event) : conn :=
  Eval vm_compute in the_conn (open_with plain_provider small_config tt 400 300 (RxData refusal :: more) silent).
Lemma refused_used more : used toy (refused_conn more) /\ at_rest (refused_conn more) /\ left_over (refused_conn more) = plain_hello.
Proof.
  assert (E : open_with plain_provider small_config tt 400 300 (RxData refusal :: more) silent
    = Ok (Err (HandshakeAborted AL_Fatal AD_HandshakeFailure), refused_conn more)) by (vm_compute; reflexivity).
  split; [|split; [repeat split|vm_compute; reflexivity]].
  unfold open_with in E. destruct (cn_new toy (zeros 400) (zeros 300) (RxData refusal :: more) silent) as [c0|e|x| |] eqn:E0; try discriminate.
  cbn [obind] in E. apply (us_first toy unit plain_provider small_config tt _ _ _ _ c0 (Err (HandshakeAborted AL_Fatal AD_HandshakeFailure)) _ E0); [congruence|].
  vm_compute. discriminate.
Qed.

(** The server that completes a handshake with a new client does not with this one. *)
Example C70_honest_case : fst (cn_open toy plain_provider small_config tt (refused_conn [RxData plain_flight])) = Err CryptoError.
Proof. vm_compute. reflexivity. Qed.

(** The only server that does is one that goes on from the secret and the transcript of the handshake it refused. *)
Definition carried_keys : keysched :=
  Eval vm_compute in
  match initialize_early_secret toy (cn_keysched (refused_conn [])) None with
  | Ok k => match initialize_handshake_secret toy
                    (mk_keysched (ks_shared k) (ks_w k) (r_with_transcript (ks_r k) (plain_hello ++ plain_hello ++ srv_hello))) srv_dhe with
            | Ok k2 => k2 | _ => k end
  | _ => ks_new toy
  end.
Definition carried_flight : bytes :=
  Eval vm_compute in
  let k := r_state (ks_r carried_keys) in
  let fin := hs_message 20 (some (rfc_verify_data toy (some (k_traffic k)) (plain_hello ++ plain_hello ++ srv_hello ++ empty_ee))) in
  plain_handshake srv_hello ++ rfc_record toy (k_key k) (k_iv k) 0 ty_handshake (empty_ee ++ fin) 0.
Definition carried_conn : conn := Eval vm_compute in snd (cn_open toy plain_provider small_config tt (refused_conn [RxData carried_flight])).
Lemma carried_opens : cn_open toy plain_provider small_config tt (refused_conn [RxData carried_flight]) = (Ok tt, carried_conn).
Proof. vm_compute. reflexivity. Qed.

Example C70_carried_case : exists x, reopened toy (refused_conn [RxData carried_flight]) carried_conn x /\
  forall y, same_messages x y -> finishes toy y ->
    same_hash_after toy plain_hello y \/ same_hmac_after toy plain_hello x y.
Proof.
  destruct (refused_used [RxData carried_flight]) as (Hu & Hr & E). rewrite <- E.
  exact (C70_one_handshake toy unit plain_provider small_config tt _ _ toy_ok Hu Hr carried_opens).
Qed.

(** With data written and not flushed. *)
Example C70_half_written_case :
  let c := snd (step toy (OpWrite [x68; x69]) (toy_conn [])) in
  wb_hdr (wh_wb (cn_wh c)) <> None /\ fst (cn_open toy plain_provider small_config tt c) = Err InternalError.
Proof. vm_compute. split; [discriminate|reflexivity]. Qed.

(** An established connection opened again, with nobody at the other end: data is still accepted. *)
Definition idle_conn : conn := Eval vm_compute in snd (cn_open toy plain_provider small_config tt (toy_conn [])).
Example C70_flag_case : used toy (toy_conn []) /\ session toy (toy_conn []) true /\
  cn_open toy plain_provider small_config tt (toy_conn []) = (Err IoError, idle_conn) /\ at_rest idle_conn /\
  fst (step toy (OpWrite [x68; x69]) idle_conn) = Ok (VCount 2).
Proof.
  pose proof (toy_conn_opened []) as E. unfold opened_conn, open_with in E.
  match type of E with (obind ?o _ = _) => destruct o as [c0|e|x| |] eqn:E0 end; try discriminate.
  cbn [obind] in E. assert (E1 : cn_open toy plain_provider small_config tt c0 = (Ok tt, toy_conn [])) by congruence.
  assert (Hu : used toy (toy_conn [])).
  { apply (us_first toy unit plain_provider small_config tt _ _ _ _ c0 (Ok tt) _ E0 E1). vm_compute. discriminate. }
  assert (Hs : session toy (toy_conn []) true).
  { exact (se_open toy unit plain_provider small_config tt c0 false (Ok tt) _ (se_new toy _ _ _ _ c0 E0) E1). }
  assert (Hr : at_rest idle_conn) by (repeat split).
  assert (Ho : cn_open toy plain_provider small_config tt (toy_conn []) = (Err IoError, idle_conn)) by (vm_compute; reflexivity).
  split; [exact Hu|]. split; [exact Hs|]. split; [exact Ho|]. split; [exact Hr|].
  apply (C70_flag_refuted toy unit plain_provider small_config tt _ _ _ [x68; x69] toy_ok Hu Hs Ho); [discriminate|exact Hr|].
  apply Nat.ltb_lt. vm_compute. reflexivity.
Qed.

Print Assumptions C70_one_handshake.
Print Assumptions C70_refused_name.
Print Assumptions C70_half_written.
Print Assumptions C70_flag_refuted.
