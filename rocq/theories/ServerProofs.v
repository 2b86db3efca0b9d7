(** * Lemmas about the server of SpecServer.v *)
From Coq Require Import String List NArith Arith Bool Lia ZArith.
From Coq.Strings Require Import Byte.
From Coq Require Import ZifyBool ZifyNat ZifyN.
From Verif Require Import Base ParseBuffer Buffer Codes Extensions Crypto KeySchedule Config Handshake Record WriteBuffer
  Transport RecordReader ReadBuffer Connection Api BaseProofs ParseProofs SpecWire SpecCodes SpecMessages WireProofs SpecKeys
  KeyProofs WriteProofs SpecRecord RecordProofs SpecRead ReadProofs SpecSend SendProofs SpecHello HelloProofs PropHello HsWrite HsProofs ConnProofs
  SpecHandshake SpecOpen ServeProofs PropSend PropWrite PropKeys FlightProofs SpecComplete MessageProofs OpenProofs CompleteProofs
  PropComplete SpecServer.
Import ListNotations.
Local Open Scope list_scope.
Local Open Scope server_scope.

(** ** The ClientHello *)

Lemma hello_msg_unique C h w tr a b : hello_msg C h w tr a -> hello_msg C h w tr b -> a = b.
Proof.
  unfold hello_msg. destruct (cfg_psk (ch_config h)) as [[k ids]|]; [|congruence].
  intros (bk & v & H1 & H2 & ->) (bk' & v' & H3 & H4 & ->). assert (bk' = bk) by congruence. subst bk'. congruence.
Qed.

(** What the server finds in the ClientHello. *)
Lemma hello_read C (h : client_hello) w hello :
  crypto_ok C -> 32 <= hash_len C -> length (ch_random h) = 32 -> c_pub C (ch_secret h) <> [] -> config_ok (ch_config h) ->
  hello_msg C h w [] hello -> w_binder w = rfc_binder_key C (option_map fst (cfg_psk (ch_config h))) ->
  (N.of_nat (hello_size (ch_config h) (length (c_pub C (ch_secret h))) (hash_len C)) <= 65540)%N ->
  length hello + 5 = hello_size (ch_config h) (length (c_pub C (ch_secret h))) (hash_len C) /\
  exists binders,
    g_whole g_record (SpecHandshake.hello_record hello) =
      Some (mk_hello 0x0303 (ch_random h) [] [code_point C] [x00] (offered (ch_config h) (c_pub C (ch_secret h)) binders)) /\
    forall k ids, cfg_psk (ch_config h) = Some (k, ids) -> exists bk b,
      rfc_binder_key C (Some k) = Some bk /\ binders = repeat b (length ids) /\
      rfc_verify_data C bk (truncated hello binders) = Some b.
Proof.
  intros HC H32 Hr Hpub Hcfg Hm Hbk Hsz.
  assert (Hh : hash_len C < 256) by (destruct (ok_sizes C HC); lia).
  assert (Hcase : exists binders, hello = hello_image C h (concat (map (vec 1) binders)) /\
     length (concat (map (vec 1) binders)) = binders_room C h /\
     (forall k ids, cfg_psk (ch_config h) = Some (k, ids) -> length binders = length ids /\ forall b, In b binders -> 32 <= length b < 256) /\
     forall k ids, cfg_psk (ch_config h) = Some (k, ids) -> exists bk b,
      rfc_binder_key C (Some k) = Some bk /\ binders = repeat b (length ids) /\
      rfc_verify_data C bk (truncated hello binders) = Some b).
  { unfold hello_msg in Hm. unfold binders_room. destruct (cfg_psk (ch_config h)) as [[k ids]|] eqn:Ep.
    - destruct Hm as (bk & v & Hw & Hv & ->). cbn [app] in Hv. cbn [option_map fst] in Hbk.
      assert (Hvl : length v = hash_len C).
      { unfold rfc_verify_data in Hv. destruct (rfc_expand_label _ _ _ _ _); [|discriminate]. inversion Hv. apply (ok_hmac_len C HC). }
      exists (repeat v (length ids)). split; [reflexivity|]. split; [rewrite concat_vec1_length, Hvl; lia|]. split.
      + intros k' ids' E. injection E as <- <-. split; [apply repeat_length|]. intros b Hb. apply repeat_spec in Hb. subst b. lia.
      + intros k' ids' E. injection E as <- <-. exists bk, v. split; [congruence|]. split; [reflexivity|].
        unfold truncated. rewrite (hello_image_prefix C h k ids _ Ep) at 1 2. rewrite app_length, concat_vec1_length, Hvl.
        replace (length ids * (1 + hash_len C)) with ((1 + hash_len C) * length ids) by lia.
        rewrite Nat.add_sub, firstn_app_exact by reflexivity. exact Hv.
    - exists []. subst hello. split; [reflexivity|]. split; [reflexivity|]. split; discriminate. }
  clear Hm. destruct Hcase as (binders & Hmsg & Hroom & Hbs & Hpsk).
  pose proof (hello_image_length C h _ Hr Hroom) as Hlen. rewrite <- Hmsg in Hlen.
  split; [lia|]. exists binders. split; [|exact Hpsk].
  destruct (offered_decodes C h binders Hcfg Hpub Hbs) as (vs & Hvs & Hs & Hd).
  apply whole_ok. unfold g_record, SpecHandshake.hello_record.
  eapply accepts_bind; [apply (accepts_uint 1); reflexivity|].
  eapply accepts_first; [apply accepts_check; reflexivity|].
  eapply accepts_bind; [apply (accepts_uint 2); reflexivity|].
  eapply accepts_first; [apply accepts_check; reflexivity|].
  eapply accepts_last; [apply (accepts_opaque 2); [apply fits_2; lia|lia]|].
  apply accepts_some. rewrite <- Hs, Hmsg. apply hello_accepted; auto. rewrite <- Hmsg. lia.
Qed.

Lemma offered_finds C cfg pub binders : let es := offered cfg pub binders in
  offers_tls13 es = true /\ offers_psk_dhe es = true /\ p256_share es = Some pub /\
  psk_offer es = match cfg_psk cfg with Some (_, ids) => Some (ids, binders) | None => None end /\
  existsb (N.eqb (code_point C)) [code_point C] = true.
Proof.
  cbv zeta. unfold offered. assert (E : (code_point C =? code_point C)%N = true) by apply N.eqb_refl.
  assert (M : forall ids : list bytes, map fst (map (fun i => (i, 0%N)) ids) = ids) by (intros ids; rewrite map_map; apply map_id).
  destruct (cfg_max_frag cfg), (cfg_server_name cfg), (cfg_alpn cfg), (cfg_psk cfg) as [[k ids]|]; cbn; rewrite ?E, ?M; auto 6.
Qed.

Lemma choose_found keys k b : forall ids n, (exists i, In i ids /\ keys i = Some k) ->
  (forall i k', In i ids -> keys i = Some k' -> k' = k) -> exists m, choose keys n ids (repeat b (length ids)) = Some (m, k, b).
Proof.
  induction ids as [|i ids IH]; intros n (j & Hj & Hk) Hu; [destruct Hj|]. cbn [length repeat choose].
  destruct (keys i) as [k'|] eqn:E; [rewrite (Hu i k' (or_introl eq_refl) E); eauto|].
  apply IH; [|intros i' k' Hi; apply (Hu i'); now right]. destruct Hj as [->|Hj]; [congruence|eauto].
Qed.

Lemma pick_found C s cfg pub binders hello :
  same_psk cfg s ->
  (forall k ids, cfg_psk cfg = Some (k, ids) -> exists bk b,
      rfc_binder_key C (Some k) = Some bk /\ binders = repeat b (length ids) /\
      rfc_verify_data C bk (truncated hello binders) = Some b) ->
  exists o, pick_psk C s hello (offered cfg pub binders) = Some o /\ option_map snd o = option_map fst (cfg_psk cfg).
Proof.
  intros Hs Hb. destruct (offered_finds C cfg pub binders) as (_ & H2 & _ & H4 & _). unfold pick_psk. rewrite H4. unfold same_psk in Hs.
  destruct (cfg_psk cfg) as [[k ids]|]; [|now exists None].
  destruct Hs as [Hi Hu]. destruct (Hb k ids eq_refl) as (bk & b & E1 & -> & E2).
  destruct (choose_found (s_keys s) k b ids 0%N Hi Hu) as (m & ->). rewrite H2, E1. cbn [opt_bind]. rewrite E2. cbn [opt_bind].
  rewrite bytes_eqb_refl. now exists (Some (m, k)).
Qed.

(** ** The exchange *)

Lemma skipn_record hello : skipn 5 (SpecHandshake.hello_record hello) = hello.
Proof. unfold SpecHandshake.hello_record. rewrite (vec_eq 2), !app_assoc. apply skipn_app_exact. now rewrite !app_length, !uint_length. Qed.

Lemma server_agrees C s cfg pub binders random hello secret dhe :
  crypto_ok C ->
  g_whole g_record (SpecHandshake.hello_record hello) = Some (mk_hello 0x0303 random [] [code_point C] [x00] (offered cfg pub binders)) ->
  same_psk cfg s ->
  (forall k ids, cfg_psk cfg = Some (k, ids) -> exists bk b,
      rfc_binder_key C (Some k) = Some bk /\ binders = repeat b (length ids) /\
      rfc_verify_data C bk (truncated hello binders) = Some b) ->
  c_dh C (s_secret s) pub = Some dhe -> c_dh C secret (c_pub C (s_secret s)) = Some dhe ->
  exists x psk, server_exchange C s (SpecHandshake.hello_record hello) = Some (option_map fst (cfg_psk cfg), x) /\
    option_map snd psk = option_map fst (cfg_psk cfg) /\
    x_hello x = hello /\ x_shello x = message (F_ServerHello 0x0303 (s_random s) [] (code_point C) 0) (hello_items C s psk) /\
    x_suite x = code_point C /\ x_items x = hello_items C s psk /\ x_group x = 0x0017%N /\ x_share x = c_pub C (s_secret s) /\
    x_before x = s_messages s (x_hellos x) /\ x_finished x = fin_message (x_verify x) /\ length (x_verify x) = hash_len C /\ x_after x = [] /\
    secrets_ok C (option_map fst (cfg_psk cfg)) secret x /\
    rfc_verify_data C (x_server x) (x_hellos x ++ raw (x_before x)) = Some (x_verify x).
Proof.
  intros HC Hg Hs Hb Hd1 Hd2. destruct (pick_found C s cfg pub binders hello Hs Hb) as (o & Hpick & Ho).
  destruct (offered_finds C cfg pub binders) as (H1 & _ & H3 & _ & H5).
  set (psk := option_map fst (cfg_psk cfg)) in *.
  set (shello := message (F_ServerHello 0x0303 (s_random s) [] (code_point C) 0) (hello_items C s o)).
  destruct (C08_key_schedule C psk dhe (hello ++ shello) [] HC) as (k1 & _ & _ & _ & _ & Hphase).
  destruct (Hphase (mk_keysched (ks_shared k1) (ks_w k1) (mk_rks (r_state (ks_r k1)) (hello ++ shello))) eq_refl eq_refl) as (hs & k2 & Hhs & _ & Hw & Hr & _).
  destruct Hw as (client & ckey & civ & D1 & D2 & D3 & _). destruct Hr as (server & skey & siv & F1 & F2 & F3 & F4 & _).
  destruct (C11_server_finished C (ks_r k2) server ((hello ++ shello) ++ raw (s_messages s (hello ++ shello))) [] HC F4) as (vd & Hvd & _).
  exists (mk_exchange hello shello (code_point C) (hello_items C s o) 0x0017 (c_pub C (s_secret s)) (s_messages s (hello ++ shello)) (fin_message vd) vd [] dhe client server ckey civ skey siv), o.
  split.
  { unfold server_exchange. rewrite Hg. cbn [opt_bind h_exts]. rewrite skipn_record, H1. unfold offers_suite. cbn [h_suites]. rewrite H5. cbn [andb].
    rewrite H3. cbn [opt_bind]. rewrite Hpick. cbn [opt_bind]. unfold server_hello. cbn [h_session]. fold shello. rewrite Ho, Hd1. cbn [opt_bind]. rewrite Hhs. cbn [opt_bind].
    rewrite D1. cbn [opt_bind]. rewrite F1. cbn [opt_bind]. rewrite D2. cbn [opt_bind]. rewrite D3. cbn [opt_bind]. rewrite F2. cbn [opt_bind]. rewrite F3. cbn [opt_bind].
    rewrite Hvd. reflexivity. }
  split; [exact Ho|]. repeat (split; [reflexivity|]). split.
  { revert Hvd. unfold rfc_verify_data. destruct (rfc_expand_label C server _ _ _); [|discriminate]. intros E. injection E as <-. apply (ok_hmac_len C HC). }
  split; [reflexivity|]. split; [|exact Hvd]. split; [exact Hd2|]. exists hs. auto 10.
Qed.

Lemma fin_understood C v : length v = hash_len C -> understood C (fin_message v) (M_Finished v).
Proof.
  intros H. split; [|exact I]. exists (uint 3 (N.of_nat (length v))), v. split; [apply uint_length|]. split; [now split|]. reflexivity.
Qed.

Lemma shello_understood C s psk : crypto_ok C -> length (s_random s) = 32 -> In (code_point C) (map fst iana_cipher_suite) ->
  let items := hello_items C s psk in
  understood C (message (F_ServerHello 0x0303 (s_random s) [] (code_point C) 0) items) (M_ServerHello (code_point C) items) /\
  share_of items 0x0017 (c_pub C (s_secret s)) /\ fits 2 (message (F_ServerHello 0x0303 (s_random s) [] (code_point C) 0) items).
Proof.
  intros HC Hr Hcp items. pose proof (ok_pub_len C HC (s_secret s)) as Hpub.
  set (pub := c_pub C (s_secret s)) in *.
  assert (Hlast : exists l, items = [(43%N, uint 2 0x0304); (51%N, uint 2 0x0017 ++ vec 2 pub)] ++ l /\ (l = [] \/ exists n, l = [(41%N, uint 2 n)])).
  { unfold items, hello_items. destruct psk as [[n k]|]; eauto. }
  destruct Hlast as (l & E & Hl). rewrite E. clearbody items. clear E items.
  assert (Hfp : fits 2 pub) by (apply fits_2; lia).
  assert (Hsz : length (items_wire ([(43%N, uint 2 0x0304); (51%N, uint 2 0x0017 ++ vec 2 pub)] ++ l)) <= 200).
  { unfold items_wire, item_wire. destruct Hl as [->|(n & ->)]; cbn [app map concat fst snd]; rewrite ?app_length, ?vec_length, ?app_length, ?vec_length, ?uint_length; cbn [length]; lia. }
  assert (Hblk : block_ok ([(43%N, uint 2 0x0304); (51%N, uint 2 0x0017 ++ vec 2 pub)] ++ l)).
  { split; [|apply fits_2; lia]. constructor; [split; reflexivity|]. constructor.
    - split; [reflexivity|]. apply fits_2. cbn [snd]. rewrite app_length, vec_length, uint_length. lia.
    - destruct Hl as [->|(n & ->)]; [constructor|]. constructor; [|constructor]. split; [reflexivity|]. apply fits_2. cbn [snd]. rewrite uint_length. lia. }
  split; [|split].
  - split.
    + unfold reads_as. eexists (uint 3 _), _. split; [apply uint_length|]. split; [|reflexivity].
      exists 0x0303%N, (s_random s), [], 0%N. split; [|split; [exact Hblk|reflexivity]]. repeat split; auto.
    + assert (Erec : recognised_items ([(43%N, uint 2 0x0304); (51%N, uint 2 0x0017 ++ vec 2 pub)] ++ l) = [(43%N, uint 2 0x0304); (51%N, uint 2 0x0017 ++ vec 2 pub)] ++ l).
      { destruct Hl as [->|(n & ->)]; reflexivity. }
      unfold digestible. rewrite Erec. split.
      * intros t b Hin. apply in_app_or in Hin. destruct Hin as [[Hin|[Hin|[]]]|Hin].
        -- apply pair_equal_spec in Hin as [<- <-]. split; [cbn; auto 10|cbn; lia].
        -- apply pair_equal_spec in Hin as [<- <-]. split; [cbn; auto 10|]. exists 0x0017%N, pub, []. rewrite app_nil_r. split; [reflexivity|]. split; [cbn; auto 10|exact Hfp].
        -- destruct Hl as [->|(n & ->)]; [destruct Hin|]. destruct Hin as [Hin|[]]. apply pair_equal_spec in Hin as [<- <-].
           split; [cbn; auto 10|]. cbn [content_ok]. rewrite uint_length. lia.
      * destruct Hl as [->|(n & ->)]; cbn; lia.
  - exists [(43%N, uint 2 0x0304)], l, []. rewrite app_nil_r. split; [reflexivity|]. split; [constructor; [discriminate|constructor]|]. split; [cbn; auto 10|exact Hfp].
  - apply fits_2. unfold message, frame_body, ext_block. rewrite app_length, vec_length, !app_length, !vec_length, !uint_length, Hr. cbn [length]. lia.
Qed.

(** ** The client's answer *)

Lemma next_record_found C lim key iv n t c w : crypto_ok C -> t <> x00 -> length c <= lim -> (N.of_nat (length c + 17) < 65536)%N ->
  next_record C lim key iv n (rfc_record C key iv n t c 0 ++ w) = Some (t, c, w).
Proof.
  intros HC Ht Hlim Hsz. unfold next_record. destruct (rfc_record_parts C key iv n t c 0 HC) as (f & -> & Hf & Ho).
  set (m := length c + 1 + 0 + 16) in *. rewrite <- app_assoc.
  assert (Hl : length (rfc_header m ++ f ++ w) = 5 + (m + length w)) by (rewrite !app_length, rfc_header_length, Hf; reflexivity).
  rewrite Hl, (proj2 (Nat.ltb_ge _ _)) by lia. cbn [negb].
  rewrite firstn_app_exact by apply rfc_header_length.
  assert (Hm : be_val (skipn 3 (rfc_header m)) = N.of_nat m).
  { unfold rfc_header. rewrite app_assoc, skipn_app_exact by (now rewrite app_length, !uint_length). apply be_val_uint_small. change (256 ^ N.of_nat 2)%N with 65536%N. lia. }
  rewrite Hm, Nat2N.id. replace (firstn 3 (rfc_header m)) with (uint 1 23 ++ uint 2 0x0303) by reflexivity. rewrite bytes_eqb_refl.
  rewrite (proj2 (Nat.ltb_ge _ _)) by lia. cbn [negb].
  rewrite skipn_app_exact by apply rfc_header_length. rewrite (firstn_app_exact f w m Hf), Ho. cbn [opt_bind].
  rewrite unpad_inner by exact Ht. cbn [opt_bind fst snd]. rewrite (proj2 (Nat.ltb_ge _ _)) by lia. cbn [negb].
  rewrite app_assoc, skipn_app_exact by (rewrite app_length, rfc_header_length, Hf; reflexivity). reflexivity.
Qed.

Lemma answer_found C lim key iv w : crypto_ok C -> forall ms f v n fuel,
  Forall (fun m => length m <= lim) (ms ++ [f]) -> (N.of_nat lim < 65519)%N ->
  Forall (fun m => exists t m', m = t :: m' /\ byte_eqb t (byte_of 20) = false) ms -> f = fin_message v -> length ms < fuel ->
  answer_records C lim key iv fuel n (wire (protected_flight C key iv n (ms ++ [f])) ++ w) = Some (ms ++ [f], w).
Proof.
  intros HC. induction ms as [|m ms IH]; intros f v n fuel Hl Hlim Hms Hf Hfuel; (destruct fuel as [|fuel]; [cbn in Hfuel; lia|]);
    cbn [app protected_flight] in *; rewrite wire_app; unfold goes_out at 1; unfold wire at 1; cbn [map concat ev_bytes];
    rewrite firstn_all, ?app_nil_r, <- ?app_assoc; inversion Hl as [|? ? Hl1 Hl2]; subst; cbn [answer_records].
  - rewrite next_record_found; [|exact HC|discriminate|exact Hl1|lia]. cbn [opt_bind]. reflexivity.
  - rewrite next_record_found; [|exact HC|discriminate|exact Hl1|lia]. cbn [opt_bind].
    inversion Hms as [|? ? (t & m' & -> & Ht) Hms']; subst. change (byte_eqb ty_handshake ty_handshake) with true. cbn iota. rewrite Ht.
    rewrite (IH (fin_message v) v (n + 1)%N fuel Hl2 Hlim Hms' eq_refl) by (cbn in Hfuel; lia). reflexivity.
Qed.

Lemma certificate_read ctx ders : fits 1 ctx -> Forall (fun d => d <> []) ders -> (N.of_nat (length (cert_message ctx ders)) < 65536)%N ->
  g_whole g_certificate (cert_message ctx ders) = Some (ctx, ders).
Proof.
  intros Hc Hd Hl. unfold cert_message in *. rewrite app_length, !vec_length, app_length, !vec_length, uint_length in Hl.
  apply whole_ok. unfold g_certificate.
  eapply accepts_bind; [apply (accepts_uint 1); reflexivity|].
  eapply accepts_first; [apply accepts_check; reflexivity|].
  set (body := concat _) in *.
  eapply accepts_last; [apply (accepts_opaque 3)|].
  { apply fits_3. rewrite app_length, !vec_length. lia. }
  { rewrite app_length, !vec_length. lia. }
  apply accepts_some, whole_ok.
  eapply accepts_bind; [apply (accepts_opaque 1); [exact Hc|apply fits_1 in Hc; lia]|].
  eapply accepts_last; [|apply accepts_ret].
  rewrite <- (map_id ders) at 1. unfold body.
  apply (accepts_vector 3 0 16777215 _ ders (fun d => vec 3 d ++ vec 2 []) (fun d => d)).
  - intros d Hin. rewrite Forall_forall in Hd. pose proof (Hd d Hin) as Hne.
    assert (Hdl : length d <= length body).
    { unfold body. clear - Hin. induction ders as [|e ders IH]; [destruct Hin|]. cbn [map concat]. rewrite !app_length, vec_length.
      destruct Hin as [->|Hin]; [lia|]. specialize (IH Hin). lia. }
    split; [|rewrite app_length, vec_length; lia].
    eapply accepts_bind; [apply (accepts_opaque 3); [apply fits_3; lia|destruct d; [congruence|cbn [length] in *; lia]]|].
    eapply accepts_last; [apply (accepts_opaque 2); [reflexivity|cbn; lia]|apply accepts_ret].
  - fold body. apply fits_3. lia.
  - fold body. lia.
Qed.

Lemma verify_read scheme sg : (scheme < 65536)%N -> (N.of_nat (length (cv_message scheme sg)) < 65536)%N ->
  g_whole g_certificate_verify (cv_message scheme sg) = Some (scheme, sg).
Proof.
  intros Hs Hl. unfold cv_message in *. rewrite app_length, vec_length, app_length, vec_length, !uint_length in Hl.
  apply whole_ok. unfold g_certificate_verify.
  eapply accepts_bind; [apply (accepts_uint 1); reflexivity|].
  eapply accepts_first; [apply accepts_check; reflexivity|].
  eapply accepts_last; [apply (accepts_opaque 3)|].
  { apply fits_3. rewrite app_length, vec_length, uint_length. lia. }
  { rewrite app_length, vec_length, uint_length. lia. }
  apply accepts_some, whole_ok.
  eapply accepts_bind; [apply (accepts_uint 2); exact Hs|].
  eapply accepts_last; [apply (accepts_opaque 2); [apply fits_2; lia|lia]|apply accepts_ret].
Qed.

Lemma requests_fit C x : Forall (fun m => understood C (fst m) (snd m) /\ in_flight (snd m) /\ ~ is_finished (snd m)) (x_before x) ->
  forall ctx, In ctx (requests (x_before x)) -> fits 1 ctx.
Proof.
  intros H ctx Hin. unfold requests in Hin. apply in_concat in Hin as (l & Hl & Hc). apply in_map_iff in Hl as ([b m] & <- & Hm).
  rewrite Forall_forall in H. destruct (H _ Hm) as ((Hr & _) & _). cbn [snd fst] in *. destruct m; try destruct Hc.
  - subst ctx. destruct Hr as (len & body & _ & Hb & _). apply Hb.
  - destruct H0.
Qed.

Lemma answered_eq x : x_after x = [] -> length (requests (x_before x)) <= 1 -> answered x = hd_error (requests (x_before x)).
Proof.
  intros Ha Hl. unfold answered.
  assert (E : requests (x_msgs x) = requests (x_before x)).
  { unfold x_msgs. rewrite Ha. unfold requests. rewrite map_app, concat_app. cbn. now rewrite app_nil_r. }
  rewrite E. destruct (requests (x_before x)) as [|a [|b l]]; try reflexivity. cbn in Hl. lia.
Qed.

Lemma answer_checked {V} C (p : provider V) s lim x ms w : crypto_ok C ->
  x_after x = [] -> length (requests (x_before x)) <= 1 -> (forall ctx, In ctx (requests (x_before x)) -> fits 1 ctx) ->
  answer C p (x_client x) (x_hellos x ++ raw (x_msgs x)) (answered x) ms -> (requests (x_before x) <> [] -> signs_for p s) ->
  Forall (fun m => length m <= lim) ms -> (N.of_nat lim < 65519)%N ->
  answer_records C lim (x_ckey x) (x_civ x) (length (wire (protected_flight C (x_ckey x) (x_civ x) 0 ms) ++ w)) 0
    (wire (protected_flight C (x_ckey x) (x_civ x) 0 ms) ++ w) = Some (ms, w) /\
  answer_ok C s x ms = Some (shown p x).
Proof.
  intros HC Haf Hone Hfit Hans Hsg Hl Hlim. rewrite (answered_eq x Haf Hone) in Hans.
  set (tr := x_hellos x ++ raw (x_msgs x)) in *.
  assert (Hshape : exists ms' f v, ms = ms' ++ [f] /\ f = fin_message v /\ length ms' <= 2 /\
     Forall (fun m => exists t m', m = t :: m' /\ byte_eqb t (byte_of 20) = false) ms').
  { unfold answer in Hans. destruct (hd_error (requests (x_before x))) as [ctx|].
    - assert (Hct : forall ctx l, exists t m', cert_message ctx l = t :: m' /\ byte_eqb t (byte_of 20) = false) by (intros; unfold cert_message; cbn; eauto).
      assert (Hvt : forall a b, exists t m', cv_message a b = t :: m' /\ byte_eqb t (byte_of 20) = false) by (intros; unfold cv_message; cbn; eauto).
      destruct (p_client_cert p).
      + destruct Hans as (sign & scheme & sg & v & _ & _ & _ & ->).
        exists [cert_message ctx (own_certs p); cv_message (sig_scheme_code scheme) sg], (fin_message v), v. repeat split; auto.
      + destruct Hans as (v & _ & ->). exists [cert_message ctx (own_certs p)], (fin_message v), v. repeat split; auto.
    - destruct Hans as (v & _ & ->). exists [], (fin_message v), v. repeat split; auto. }
  destruct Hshape as (ms' & f & v0 & Ems & Hf & Hn & Hty). split.
  - rewrite Ems in *. eapply answer_found; eauto. rewrite app_length.
    assert (Hlen : length ms' < length (wire (protected_flight C (x_ckey x) (x_civ x) 0 (ms' ++ [f])))).
    { clear - Hn HC. assert (G : forall ms n, length ms <= length (wire (protected_flight C (x_ckey x) (x_civ x) n ms))).
      { induction ms as [|m ms IH]; intros n; cbn [protected_flight]; [cbn; lia|]. rewrite wire_app, app_length. specialize (IH (n + 1)%N).
        unfold goes_out, wire at 1. cbn [map concat ev_bytes]. rewrite firstn_all, !app_nil_r, rfc_record_length by exact HC. cbn [length]. lia. }
      specialize (G (ms' ++ [f]) 0%N). rewrite app_length in G. cbn [length] in G. lia. }
    lia.
  - unfold answer_ok. fold tr. unfold shown. unfold answer in Hans. clear ms' f v0 Ems Hf Hn Hty. destruct (requests (x_before x)) as [|ctx l]; cbn [hd_error] in Hans.
    + destruct Hans as (v & Hv & ->). unfold finished_ok. now rewrite Hv, bytes_eqb_refl.
    + specialize (Hsg ltac:(discriminate)). unfold signs_for in Hsg. unfold own_certs in *. destruct (p_client_cert p) as [e|].
      * destruct (Hsg e eq_refl) as (d & -> & Hd & Hck). destruct Hans as (sign & scheme & sg & v & Hs1 & Hs2 & Hv & ->).
        inversion Hl as [|? ? L1 L2]; subst. inversion L2 as [|? ? L3 _]; subst.
        rewrite certificate_read; [|apply Hfit; now left|constructor; [exact Hd|constructor]|lia]. cbn [opt_bind fst snd]. rewrite bytes_eqb_refl. cbn [andb negb length Nat.eqb].
        rewrite verify_read; [|apply sig_scheme_small|lia]. cbn [opt_bind fst snd]. rewrite (Hck _ _ _ _ Hs1 Hs2).
        unfold finished_ok. rewrite Hv, bytes_eqb_refl. reflexivity.
      * destruct Hans as (v & Hv & ->). inversion Hl as [|? ? L1 _]; subst.
        rewrite certificate_read; [|apply Hfit; now left|constructor|lia]. cbn [opt_bind fst snd]. rewrite bytes_eqb_refl. cbn [andb length Nat.eqb].
        unfold finished_ok. rewrite Hv, bytes_eqb_refl. reflexivity.
Qed.

(** ** The application keys *)

Lemma key_messages_eq x : x_after x = [] -> key_messages x = x_hellos x ++ raw (x_msgs x).
Proof.
  intros Ha. unfold key_messages. destruct (answered x); [reflexivity|]. unfold x_msgs. rewrite Ha. unfold raw. rewrite map_app, concat_app.
  cbn [map concat fst]. now rewrite app_nil_r.
Qed.

Lemma app_keys_session C psk x label key iv : x_after x = [] -> app_keys C psk x label = Some (key, iv) <-> session_keys C psk x label key iv.
Proof.
  intros Ha. unfold app_keys, session_keys. rewrite (key_messages_eq x Ha). split.
  - destruct (rfc_master C psk (x_dhe x)) as [m|]; [|discriminate]. cbn [opt_bind]. destruct (rfc_derive_secret C m label _) as [s|] eqn:E; [|discriminate]. cbn [opt_bind].
    destruct (rfc_key C s) as [k|] eqn:Ek; [|discriminate]. destruct (rfc_iv C s) as [i|] eqn:Ei; [|discriminate]. cbn [opt_bind]. intros H. injection H as <- <-. eauto 8.
  - intros (m & s & -> & H2 & H3 & H4). cbn [opt_bind]. rewrite H2. cbn [opt_bind]. rewrite H3, H4. reflexivity.
Qed.

Lemma app_keys_exist C psk x label : crypto_ok C -> (label = "c ap traffic" \/ label = "s ap traffic")%string ->
  exists key iv, app_keys C psk x label = Some (key, iv).
Proof.
  intros HC Hl. unfold app_keys. destruct (C08_key_schedule C psk (x_dhe x) [] (x_hellos x ++ raw (x_msgs x)) HC) as (k1 & _ & _ & _ & _ & Hphase).
  destruct (Hphase (mk_keysched (ks_shared k1) (ks_w k1) (mk_rks (r_state (ks_r k1)) [])) eq_refl eq_refl) as (hs & k2 & _ & _ & _ & _ & _ & Hp2).
  destruct (Hp2 (mk_keysched (ks_shared k2) (ks_w k2) (mk_rks (r_state (ks_r k2)) (x_hellos x ++ raw (x_msgs x)))) eq_refl eq_refl) as (ms & k3 & -> & _ & Hw & Hr & _).
  destruct Hw as (a & b & c & W1 & W2 & W3 & _). destruct Hr as (d & e & f & R1 & R2 & R3 & _). cbn [opt_bind].
  destruct Hl as [-> | ->]; [rewrite W1|rewrite R1]; cbn [opt_bind]; [rewrite W2, W3|rewrite R2, R3]; cbn [opt_bind]; eauto.
Qed.
