(** * C06, C12: the ClientHello on the wire *)
From Coq Require Import String List NArith Arith Bool Lia ZArith.
From Coq.Strings Require Import Byte.
From Coq Require Import ZifyBool ZifyNat ZifyN.
From Verif Require Import Base Buffer Codes Extensions Crypto KeySchedule Config Handshake Record WriteBuffer
  BaseProofs SpecWire WireProofs BufferProofs SpecKeys KeyProofs WriteProofs SpecCodes SpecHello HelloProofs Toy.
Import ListNotations.
Local Open Scope list_scope.

Ltac Zify.zify_post_hook ::= Z.div_mod_to_equations.

(** ** Statement vocabulary *)

(** Configurations whose fields respect the minimum sizes of the RFC vectors. *)
Definition config_ok (g : tls_config) : Prop :=
  cfg_schemes g <> [] /\ cfg_groups g <> [] /\
  (forall n, cfg_server_name g = Some n -> n <> []) /\
  (forall l, cfg_alpn g = Some l -> l <> [] /\ forall p, In p l -> p <> [] /\ length p < 256) /\
  (forall k ids, cfg_psk g = Some (k, ids) -> ids <> [] /\ forall i, In i ids -> i <> []).

(** The extensions the configuration asks for, decoded, in order. *)
Definition offered (g : tls_config) (pub : bytes) (binders : list bytes) : list hello_ext :=
  [H_supported_versions [0x0304%N]; H_signature_algorithms (cfg_schemes g)] ++
  match cfg_max_frag g with Some m => [H_max_fragment_length m] | None => [] end ++
  [H_supported_groups (cfg_groups g); H_psk_modes [PM_PskDheKe]; H_key_share [(NG_Secp256r1, pub)]] ++
  match cfg_server_name g with Some n => [H_server_name [(0%N, n)]] | None => [] end ++
  match cfg_alpn g with Some l => [H_alpn l] | None => [] end ++
  match cfg_psk g with Some (_, ids) => [H_pre_shared_key (map (fun i => (i, 0%N)) ids) binders] | None => [] end.

(** The size of the record. *)
Definition sum (l : list nat) : nat := fold_right Nat.add 0 l.
Definition hello_size (g : tls_config) (pub hash : nat) : nat :=
  5 + 4 + 2 + 32 + 1 + 4 + 2 + 2 +
  7 + (6 + 2 * length (cfg_schemes g)) +
  match cfg_max_frag g with Some _ => 5 | None => 0 end +
  (6 + 2 * length (cfg_groups g)) + 6 + (10 + pub) +
  match cfg_server_name g with Some n => 9 + length n | None => 0 end +
  match cfg_alpn g with Some l => 6 + sum (map (fun p => 1 + length p) l) | None => 0 end +
  match cfg_psk g with
  | Some (_, ids) => 8 + sum (map (fun i => 6 + length i) ids) + length ids * (1 + hash)
  | None => 0
  end.

(** ** Lemmas *)

Lemma concat_length_sum {T} (f : T -> bytes) l : length (concat (map f l)) = sum (map (fun x => length (f x)) l).
Proof. induction l as [|x l IH]; [reflexivity|]. cbn [map concat sum fold_right]. rewrite app_length, IH. reflexivity. Qed.

Lemma sum_const {T} (l : list T) k : sum (map (fun _ => k) l) = k * length l.
Proof. induction l as [|x l IH]; cbn [map sum fold_right length]; [lia|]. unfold sum in IH. lia. Qed.

Lemma sum_ext {T} (f g : T -> nat) l : (forall x, f x = g x) -> sum (map f l) = sum (map g l).
Proof. intros H. f_equal. now apply map_ext. Qed.

Lemma hello_image_length C h b : length (ch_random h) = 32 ->
  length b = binders_room C h ->
  5 + length (hello_image C h b) = hello_size (ch_config h) (length (c_pub C (ch_secret h))) (hash_len C).
Proof.
  intros Hr Hb. unfold hello_image, hello_body, hello_size, binders_room in *. lens.
  unfold ch_extensions. rewrite !map_app, !concat_app. lens. rewrite Hr.
  assert (Hs : length (ext_image b (mk_ext ET_SignatureAlgorithms (XD_SigAlgs (cfg_schemes (ch_config h))))) = 6 + 2 * length (cfg_schemes (ch_config h))).
  { unfold ext_image. cbn [x_data data_image]. lens. rewrite concat_length_sum.
    rewrite (sum_ext _ (fun _ => 2)) by (intros; apply uint_length). rewrite sum_const. lia. }
  assert (Hg : length (ext_image b (mk_ext ET_SupportedGroups (XD_Groups (cfg_groups (ch_config h))))) = 6 + 2 * length (cfg_groups (ch_config h))).
  { unfold ext_image. cbn [x_data data_image]. lens. rewrite concat_length_sum.
    rewrite (sum_ext _ (fun _ => 2)) by (intros; apply uint_length). rewrite sum_const. lia. }
  assert (Hk : length (ext_image b (mk_ext ET_KeyShare (XD_KeySharesCH [(NG_Secp256r1, c_pub C (ch_secret h))]))) = 10 + length (c_pub C (ch_secret h))).
  { unfold ext_image. cbn [x_data data_image map concat fst snd]. lens. lia. }
  cbn [map concat]. lens. rewrite Hs, Hg, Hk.
  assert (Hm : length (concat (map (ext_image b) match cfg_max_frag (ch_config h) with Some m => [mk_ext ET_MaxFragmentLength (XD_MaxFrag m)] | None => [] end))
    = match cfg_max_frag (ch_config h) with Some _ => 5 | None => 0 end) by (destruct (cfg_max_frag _); reflexivity).
  assert (Hn : length (concat (map (ext_image b) match cfg_server_name (ch_config h) with Some n => [mk_ext ET_ServerName (XD_ServerNames [n])] | None => [] end))
    = match cfg_server_name (ch_config h) with Some n => 9 + length n | None => 0 end).
  { destruct (cfg_server_name _); [|reflexivity]. cbn [map concat]. unfold ext_image. cbn [x_data data_image map concat]. lens. lia. }
  assert (Ha : length (concat (map (ext_image b) match cfg_alpn (ch_config h) with Some p => [mk_ext ET_ApplicationLayerProtocolNegotiation (XD_Alpn p)] | None => [] end))
    = match cfg_alpn (ch_config h) with Some l => 6 + sum (map (fun p => 1 + length p) l) | None => 0 end).
  { destruct (cfg_alpn _) as [l|]; [|reflexivity]. cbn [map concat]. unfold ext_image. cbn [x_data data_image]. lens.
    rewrite concat_length_sum, (sum_ext _ (fun p => 1 + length p)) by (intros; apply vec_length). lia. }
  assert (Hp : length (concat (map (ext_image b) match cfg_psk (ch_config h) with Some (_, ids) => [mk_ext ET_PreSharedKey (XD_PskCH ids (hash_len C))] | None => [] end))
    = match cfg_psk (ch_config h) with Some (_, ids) => 8 + sum (map (fun i => 6 + length i) ids) + length ids * (1 + hash_len C) | None => 0 end).
  { destruct (cfg_psk _) as [[k ids]|]; [|reflexivity]. cbn [map concat]. unfold ext_image. cbn [x_data data_image]. lens.
    rewrite Hb, concat_length_sum, (sum_ext _ (fun p => 6 + length p)).
    - lia.
    - intros i. lens. lia. }
  rewrite Hm, Hn, Ha, Hp.
  unfold ext_image. cbn [x_data data_image map concat]. lens. lia.
Qed.

Lemma offered_decodes C h binders : config_ok (ch_config h) -> c_pub C (ch_secret h) <> [] ->
  (forall k ids, cfg_psk (ch_config h) = Some (k, ids) ->
     length binders = length ids /\ forall b, In b binders -> 32 <= length b < 256) ->
  exists vs, Forall2 (decodes_to binders) (ch_extensions C h) vs /\
    map snd vs = offered (ch_config h) (c_pub C (ch_secret h)) binders /\
    distinct (map fst vs) && psk_last (map fst vs) = true.
Proof.
  intros (H1 & H2 & H3 & H4 & H5) Hpub Hb.
  unfold ch_extensions, offered.
  destruct (cfg_max_frag _) as [m|], (cfg_server_name _) as [n|], (cfg_alpn _) as [l|], (cfg_psk _) as [[k ids]|];
    cbn [app]; eexists; (split; [repeat (first [apply Forall2_nil | apply Forall2_cons;
       [solve [ apply d_versions | apply d_schemes; assumption | apply d_frag | apply d_groups; assumption
              | apply d_modes | apply d_share; assumption | apply d_name; apply H3; reflexivity
              | apply d_alpn; apply (H4 _ eq_refl)
              | apply d_psk; [apply (H5 _ _ eq_refl)|apply (H5 _ _ eq_refl)|apply (Hb _ _ eq_refl)|apply (Hb _ _ eq_refl)]] |] ]) | split; reflexivity]).
Qed.

(** The record sent, for every configuration (no wire limits assumed). *)
Lemma hello_record C h w tr bk buf :
  crypto_ok C -> hash_len C < 256 ->
  (cfg_psk (ch_config h) <> None -> w_binder w = Some bk) ->
  exists msg binders,
    (match cfg_psk (ch_config h) with
     | None => msg = hello_image C h [] /\ binders = []
     | Some (_, ids) => exists v,
         rfc_verify_data C bk (tr ++ hello_prefix C h ids ((1 + hash_len C) * length ids)) = Some v /\
         length v = hash_len C /\ binders = repeat v (length ids) /\
         msg = hello_image C h (concat (map (vec 1) binders))
     end) /\
    msg = hello_image C h (concat (map (vec 1) binders)) /\
    length (concat (map (vec 1) binders)) = binders_room C h /\
    (5 + length msg <= length buf ->
       wb_write_record C (CR_Handshake (CH_Hello h) false) w tr (mk_wbuf buf 0 None)
       = (Ok (uint 1 22 ++ uint 2 0x0301 ++ vec 2 msg, tr ++ msg),
          mk_wbuf (uint 1 22 ++ uint 2 0x0301 ++ vec 2 msg ++ skipn (5 + length msg) buf) 0 None)) /\
    (length buf < 5 + length msg ->
       exists e w', wb_write_record C (CR_Handshake (CH_Hello h) false) w tr (mk_wbuf buf 0 None) = (Err e, w')
         /\ (e = InsufficientSpace \/ e = EncodeError)).
Proof.
  intros HC Hh Hbk. set (room := binders_room C h).
  assert (Hfin : exists msg binders,
    (match cfg_psk (ch_config h) with
     | None => msg = hello_image C h [] /\ binders = []
     | Some (_, ids) => exists v,
         rfc_verify_data C bk (tr ++ hello_prefix C h ids ((1 + hash_len C) * length ids)) = Some v /\
         length v = hash_len C /\ binders = repeat v (length ids) /\
         msg = hello_image C h (concat (map (vec 1) binders))
     end) /\ msg = hello_image C h (concat (map (vec 1) binders)) /\
     length (concat (map (vec 1) binders)) = room /\
     finalize_client_hello C h w (hello_image C h (zeros room)) tr = Ok (msg, tr ++ msg)).
  { unfold room, binders_room in *. destruct (cfg_psk (ch_config h)) as [[key ids]|] eqn:Ep.
    - specialize (Hbk ltac:(discriminate)).
      set (p := hello_prefix C h ids ((1 + hash_len C) * length ids)).
      destruct (expand_label_total C bk "finished" [] (hash_len C) HC) as (fk & Hfk & _).
      { destruct (ok_sizes C HC). lia. }
      set (v := c_hmac C fk (c_hash C (tr ++ p))).
      assert (Hl : length v = hash_len C) by apply (ok_hmac_len C HC).
      exists (hello_image C h (concat (map (vec 1) (repeat v (length ids))))), (repeat v (length ids)).
      split; [exists v; split; [unfold rfc_verify_data; rewrite Hfk; reflexivity|auto]|].
      split; [reflexivity|]. split; [rewrite concat_vec1_length, Hl; lia|].
      apply (finalize_psk C h w tr key ids v Ep); [|assumption|lia].
      cbv zeta. fold p. unfold create_psk_binder. rewrite Hbk.
      rewrite make_label_none by (try assumption; cbn; lia). rewrite Hfk. reflexivity.
    - exists (hello_image C h []), []. split; [auto|]. split; [reflexivity|]. split; [reflexivity|].
      unfold finalize_client_hello. rewrite Ep. reflexivity. }
  destruct Hfin as (msg & binders & Hm & Hmsg & Hroom & Hf). exists msg, binders.
  do 3 (split; [assumption|]).
  assert (Hlen : length msg = length (hello_image C h (zeros room))).
  { subst msg. unfold hello_image, hello_body. lens.
    assert (E : length (concat (map (ext_image (concat (map (vec 1) binders))) (ch_extensions C h)))
      = length (concat (map (ext_image (zeros room)) (ch_extensions C h)))); [|lia].
    rewrite !concat_length_sum. apply sum_ext. intros e. apply ext_image_length. now rewrite Hroom, zeros_length. }
  split.
  - intros Hfit.
    rewrite (write_record_plain C (CR_Handshake (CH_Hello h) false) w tr (hello_image C h (zeros room)) msg (tr ++ msg) buf);
      [|apply encodes_hello|exact Hf|exact Hlen|reflexivity|lia].
    rewrite <- Hlen. unfold hdr5, vec. cbn [cr_header].
    change (hdr3 (RH_Handshake false)) with (uint 1 22 ++ uint 2 0x0301).
    replace (be16 (N.of_nat (length msg))) with (uint 2 (N.of_nat (length msg))) by apply uint_be16.
    rewrite <- !app_assoc. reflexivity.
  - intros Hfit.
    destruct (write_record_no_room C (CR_Handshake (CH_Hello h) false) w tr (hello_image C h (zeros room)) buf) as (e & w' & He & Hs & _).
    + apply encodes_hello.
    + lia.
    + exists e, w'. split; [exact He|exact Hs].
Qed.

(** ** C06 *)
Theorem C06_client_hello : forall C h w tr bk buf,
  crypto_ok C -> 32 <= hash_len C ->
  length (ch_random h) = 32 -> c_pub C (ch_secret h) <> [] ->
  config_ok (ch_config h) ->
  (cfg_psk (ch_config h) <> None -> w_binder w = Some bk) ->
  (N.of_nat (length buf) <= 65540)%N ->
  if hello_size (ch_config h) (length (c_pub C (ch_secret h))) (hash_len C) <=? length buf
  then exists bs tr' w' binders,
    wb_write_record C (CR_Handshake (CH_Hello h) false) w tr (mk_wbuf buf 0 None) = (Ok (bs, tr'), w') /\
    g_whole g_record bs
    = Some (mk_hello 0x0303 (ch_random h) [] [code_point C] [x00]
              (offered (ch_config h) (c_pub C (ch_secret h)) binders))
  else exists e w',
    wb_write_record C (CR_Handshake (CH_Hello h) false) w tr (mk_wbuf buf 0 None) = (Err e, w') /\
    (e = InsufficientSpace \/ e = EncodeError).
Proof.
  intros C h w tr bk buf HC H32 Hr Hpub Hcfg Hbk Hbuf.
  assert (Hh : hash_len C < 256) by (destruct (ok_sizes C HC); lia).
  destruct (hello_record C h w tr bk buf HC Hh Hbk) as (msg & binders & Hcase & Hmsg & Hroom & Hok & Hno).
  rewrite <- (hello_image_length C h (concat (map (vec 1) binders)) Hr Hroom), <- Hmsg.
  destruct (5 + length msg <=? length buf) eqn:E.
  - apply Nat.leb_le in E. specialize (Hok E).
    exists (uint 1 22 ++ uint 2 0x0301 ++ vec 2 msg), (tr ++ msg). eexists. exists binders.
    split; [exact Hok|].
    destruct (offered_decodes C h binders Hcfg Hpub) as (vs & Hvs & Hs & Hd).
    { intros k ids Ep. rewrite Ep in Hcase. destruct Hcase as (v & _ & Hl & -> & _).
      split; [apply repeat_length|]. intros b Hb. apply repeat_spec in Hb. subst b. lia. }
    apply whole_ok. unfold g_record.
    eapply accepts_bind; [apply (accepts_uint 1); reflexivity|].
    eapply accepts_first; [apply accepts_check; reflexivity|].
    eapply accepts_bind; [apply (accepts_uint 2); reflexivity|].
    eapply accepts_first; [apply accepts_check; reflexivity|].
    eapply accepts_last; [apply (accepts_opaque 2); [apply fits_2; lia|lia]|].
    apply accepts_some. rewrite Hmsg, <- Hs. apply hello_accepted; auto. rewrite <- Hmsg. lia.
  - apply Nat.leb_gt in E. exact (Hno E).
Qed.
Print Assumptions C06_client_hello.

(** The wire limits are needed: an ALPN name of 256 bytes is accepted by the builder and
    written, but the result is not a ClientHello. *)
Definition bad_alpn : tls_config :=
  mk_config None (Some [repeat x61 256]) None [SS_Ed25519] [NG_Secp256r1] None.
Definition bad_alpn_run :=
  wb_write_record toy (CR_Handshake (CH_Hello (mk_ch bad_alpn (repeat x01 32) (repeat x02 33))) false)
    (mk_wks (kstate_new toy) None) [] (mk_wbuf (zeros 1024) 0 None).
Theorem C06_alpn_limit_needed_refuted :
  exists bs tr' w', bad_alpn_run = (Ok (bs, tr'), w') /\ g_whole g_record bs = None.
Proof.
  assert (H : match bad_alpn_run with
              | (Ok (bs, _), _) => match g_whole g_record bs with None => true | _ => false end
              | _ => false end = true) by (vm_compute; reflexivity).
  destruct bad_alpn_run as [[[bs tr']| | | |] w']; try discriminate.
  exists bs, tr', w'. split; [reflexivity|]. now destruct (g_whole g_record bs).
Qed.

(** A configuration using every field meets the premises. *)
Definition full_config : tls_config :=
  mk_config (Some (lit "example.com")) (Some [lit "h2"; lit "http/1.1"])
    (Some ([x01; x02; x03], [lit "id1"; lit "second"]))
    [SS_EcdsaSecp256r1Sha256; SS_Ed25519] [NG_Secp256r1; NG_X25519] (Some MFL_Bits10).
Lemma full_config_ok : config_ok full_config.
Proof.
  unfold config_ok, full_config. cbn [cfg_schemes cfg_groups cfg_server_name cfg_alpn cfg_psk].
  split; [discriminate|]. split; [discriminate|].
  split; [intros n E; inversion E; discriminate|]. split.
  - intros l E. inversion E. split; [discriminate|]. intros p [<-|[<-|[]]]; (split; [discriminate|cbn; lia]).
  - intros k ids E. inversion E. split; [discriminate|]. intros i [<-|[<-|[]]]; discriminate.
Qed.
Example C06_premises :
  config_ok full_config /\ 32 <= hash_len toy /\ c_pub toy (repeat x02 33) <> [] /\
  hello_size full_config 33 32 <= 300.
Proof.
  split; [apply full_config_ok|]. split; [apply Nat.leb_le; reflexivity|]. split; [discriminate|]. apply Nat.leb_le; reflexivity.
Qed.

(** ** C12 *)

(** With a PSK the record is header, then a prefix, then the binder list; each binder is the
    RFC value (4.2.11.2) over the transcript so far and that prefix, which is every byte of
    the message sent before the binder list; and the transcript gains exactly the message. *)
Theorem C12_binders : forall C h w tr psk ids bk buf,
  crypto_ok C -> length (ch_random h) = 32 ->
  cfg_psk (ch_config h) = Some (psk, ids) ->
  rfc_binder_key C (Some psk) = Some bk -> w_binder w = rfc_binder_key C (Some psk) ->
  hello_size (ch_config h) (length (c_pub C (ch_secret h))) (hash_len C) <= length buf ->
  exists prefix binder w',
    let msg := prefix ++ vec 2 (concat (map (vec 1) (repeat binder (length ids)))) in
    wb_write_record C (CR_Handshake (CH_Hello h) false) w tr (mk_wbuf buf 0 None)
    = (Ok (uint 1 22 ++ uint 2 0x0301 ++ vec 2 msg, tr ++ msg), w') /\
    rfc_verify_data C bk (tr ++ prefix) = Some binder /\ length binder = hash_len C.
Proof.
  intros C h w tr psk ids bk buf HC Hr Hp Hk Hw Hbuf.
  assert (Hh : hash_len C < 256) by (destruct (ok_sizes C HC); lia).
  destruct (hello_record C h w tr bk buf HC Hh) as (msg & binders & Hcase & Hmsg & Hroom & Hok & _).
  { intros _. congruence. }
  rewrite Hp in Hcase. destruct Hcase as (v & Hv & Hl & -> & _).
  rewrite <- (hello_image_length C h _ Hr Hroom), <- Hmsg in Hbuf.
  exists (hello_prefix C h ids ((1 + hash_len C) * length ids)), v. eexists. cbv zeta.
  replace (hello_prefix C h ids ((1 + hash_len C) * length ids) ++
           vec 2 (concat (map (vec 1) (repeat v (length ids))))) with msg.
  - split; [apply Hok, Hbuf|]. split; assumption.
  - rewrite Hmsg, (hello_image_prefix C h psk ids _ Hp), concat_vec1_length, Hl. do 2 f_equal. lia.
Qed.
Print Assumptions C12_binders.

(** Without a PSK nothing is patched; the transcript still gains exactly the message sent. *)
Theorem C12_no_psk : forall C h w tr buf bs tr' w',
  crypto_ok C -> cfg_psk (ch_config h) = None ->
  wb_write_record C (CR_Handshake (CH_Hello h) false) w tr (mk_wbuf buf 0 None) = (Ok (bs, tr'), w') ->
  exists msg, bs = uint 1 22 ++ uint 2 0x0301 ++ vec 2 msg /\ tr' = tr ++ msg.
Proof.
  intros C h w tr buf bs tr' w' HC Hp H.
  assert (Hh : hash_len C < 256) by (destruct (ok_sizes C HC); lia).
  destruct (hello_record C h w tr [] buf HC Hh) as (msg & binders & _ & _ & _ & Hok & Hno).
  { intros E. congruence. }
  exists msg. destruct (le_lt_dec (5 + length msg) (length buf)) as [L|L].
  - rewrite (Hok L) in H. now inversion H.
  - destruct (Hno L) as (e & w2 & E & _). congruence.
Qed.
Print Assumptions C12_no_psk.

(** The initial key schedule provides the binder key of the configured PSK. *)
Definition full_run :=
  k1 <-- initialize_early_secret toy (ks_new toy) (Some [x01; x02; x03]) ;;
  r <-- fst (wb_write_record toy
         (CR_Handshake (CH_Hello (mk_ch full_config (repeat x01 32) (repeat x02 33))) false)
         (ks_w k1) [] (mk_wbuf (zeros 300) 0 None)) ;;
  Ok r.
Example C12_example :
  match full_run with
  | Ok (bs, tr) => Nat.eqb (length bs) (hello_size full_config 33 32)
      && bytes_eqb tr (skipn 5 bs) && match g_whole g_record bs with Some _ => true | None => false end
  | _ => false
  end = true.
Proof. vm_compute. reflexivity. Qed.
