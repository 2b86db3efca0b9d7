(** * Proofs about agreement on a handshake *)
From Coq Require Import String List NArith Arith Bool Lia ZArith.
From Coq.Strings Require Import Byte.
From Coq Require Import ZifyBool ZifyNat ZifyN.
From Verif Require Import Base ParseBuffer Buffer Codes Extensions Crypto KeySchedule Config Handshake Record WriteBuffer
  Transport RecordReader ReadBuffer Connection Api BaseProofs ParseProofs SpecWire SpecCodes SpecMessages WireProofs SpecKeys
  KeyProofs WriteProofs SpecRecord RecordProofs SpecRead ReadProofs SpecSend SendProofs SpecSession SpecHello HelloProofs PropHello HsWrite HsProofs ConnProofs
  SpecHandshake SpecOpen ServeProofs PropSend PropWrite PropRead PropKeys FlightProofs SpecComplete MessageProofs OpenProofs CompleteProofs
  PropComplete AcceptProofs SpecServer ServerProofs PropServer ReceiverProofs ListenProofs SpecAgree.
Import ListNotations.
Local Open Scope list_scope.

(** ** What the grammar accepts is determined by the message in it *)

Lemma g_bytes_ok n bs a r : g_bytes n bs = Some (a, r) -> bs = a ++ r /\ N.of_nat (length a) = n.
Proof.
  unfold g_bytes. destruct (n <=? _)%N eqn:E; [|discriminate]. intros H. injection H as <- <-. split; [now rewrite firstn_skipn|].
  rewrite firstn_length. lia.
Qed.
Lemma g_uint_ok k bs n r : g_uint k bs = Some (n, r) -> (n < 256 ^ k)%N /\ bs = uint (N.to_nat k) n ++ r.
Proof.
  unfold g_uint, g_bind, g_ret. destruct (g_bytes k bs) as [[a r']|] eqn:E; [|discriminate]. intros H. injection H as <- <-.
  apply g_bytes_ok in E as [-> E]. rewrite num_be_val. subst k. rewrite Nat2N.id. split; [apply be_val_lt|]. now rewrite (AcceptProofs.uint_be_val _ _ eq_refl).
Qed.
Lemma g_opaque_ok k lo hi bs a r : g_opaque k lo hi bs = Some (a, r) -> bs = vec (N.to_nat k) a ++ r /\ (N.of_nat (length a) < 256 ^ k)%N.
Proof.
  unfold g_opaque, g_bind. destruct (g_uint k bs) as [[n r1]|] eqn:E1; [|discriminate]. destruct (g_bytes n r1) as [[b r2]|] eqn:E2; [|discriminate].
  destruct ((lo <=? n) && (n <=? hi))%N; [|discriminate]. cbn. intros H. injection H as <- <-.
  apply g_uint_ok in E1 as [Hn ->]. apply g_bytes_ok in E2 as [-> E2]. subst n. split; [|exact Hn]. rewrite vec_eq. now rewrite <- app_assoc.
Qed.
Lemma g_whole_ok {A} (p : grammar A) bs a : g_whole p bs = Some a -> p bs = Some (a, []).
Proof. unfold g_whole. destruct (p bs) as [[x [|]]|]; congruence. Qed.

Lemma record_message record h : g_whole g_record record = Some h ->
  exists body, fits 3 body /\ record = SpecHandshake.hello_record (uint 1 1 ++ vec 3 body).
Proof.
  intros H. apply g_whole_ok in H. unfold g_record in H. unfold g_bind at 1 in H. destruct (g_uint 1 record) as [[t r1]|] eqn:E1; [|discriminate].
  unfold g_bind at 1 in H. destruct (t =? 22)%N eqn:Et; cbn [g_check] in H; [|discriminate]. unfold g_ret at 1 in H.
  unfold g_bind at 1 in H. destruct (g_uint 2 r1) as [[v r2]|] eqn:E2; [|discriminate].
  unfold g_bind at 1 in H. destruct (v =? 0x0301)%N eqn:Ev; cbn [g_check] in H; [|discriminate]. unfold g_ret at 1 in H.
  unfold g_bind at 1 in H. destruct (g_opaque 2 0 65535 r2) as [[b r3]|] eqn:E3; [|discriminate].
  destruct (g_whole g_handshake b) as [x|] eqn:E4; cbn [g_some] in H; [|discriminate]. unfold g_ret in H. injection H as -> ->.
  apply g_whole_ok in E4. unfold g_handshake in E4. unfold g_bind at 1 in E4. destruct (g_uint 1 b) as [[t' r4]|] eqn:E5; [|discriminate].
  unfold g_bind at 1 in E4. destruct (t' =? 1)%N eqn:Et'; cbn [g_check] in E4; [|discriminate]. unfold g_ret at 1 in E4.
  unfold g_bind at 1 in E4. destruct (g_opaque 3 0 16777215 r4) as [[body r5]|] eqn:E6; [|discriminate].
  destruct (g_whole g_client_hello body) as [y|]; cbn [g_some] in E4; [|discriminate]. unfold g_ret in E4. injection E4 as -> ->.
  apply g_uint_ok in E1 as [_ ->]. apply g_uint_ok in E2 as [_ ->]. apply g_opaque_ok in E3 as [-> _]. apply g_uint_ok in E5 as [_ ->]. apply g_opaque_ok in E6 as [-> Hf].
  apply N.eqb_eq in Et, Ev, Et'. subst t v t'. exists body. split; [exact Hf|]. unfold SpecHandshake.hello_record. now rewrite !app_nil_r.
Qed.

(** Two ClientHello messages in front of the same bytes. *)
Lemma hello_split a b j k : fits 3 a -> fits 3 b -> (uint 1 1 ++ vec 3 a) ++ j = (uint 1 1 ++ vec 3 b) ++ k -> a = b /\ j = k.
Proof.
  intros Ha Hb H. rewrite !vec_eq, <- !app_assoc in H. apply app_inv_head in H.
  apply app_len in H as [Hu H]; [|now rewrite !uint_length]. apply (f_equal be_val) in Hu. rewrite !be_val_uint_small in Hu by assumption.
  apply app_len in H as [-> ->]; [auto|lia].
Qed.

(** The messages of a flight are determined by the bytes. *)
Lemma flight_split C : forall a b, Forall (fun m => understood C (fst m) (snd m)) a -> Forall (fun m => understood C (fst m) (snd m)) b ->
  raw a = raw b -> map fst a = map fst b.
Proof.
  unfold raw. induction a as [|[x m] a IH]; intros [|[y n] b] Ha Hb H; cbn [map concat fst] in H; [reflexivity| | |].
  - inversion Hb as [|? ? Hy]; subst. cbn [fst snd] in Hy. apply CaseProofs.understood_pos in Hy. destruct y; [now destruct Hy|discriminate].
  - inversion Ha as [|? ? Hy]; subst. cbn [fst snd] in Hy. apply CaseProofs.understood_pos in Hy. destruct x; [now destruct Hy|discriminate].
  - inversion Ha as [|? ? Hx Ha']; inversion Hb as [|? ? Hy Hb']; subst. cbn [fst snd map] in *.
    destruct (first_message C x y m n _ _ Hx Hy H) as (-> & E & _). f_equal. now apply IH.
Qed.

(** The share in a ServerHello is determined by the bytes. *)
Lemma shares_agree C b suite items g s suite' items' g' s' :
  understood C b (M_ServerHello suite items) -> share_of items g s ->
  understood C b (M_ServerHello suite' items') -> share_of items' g' s' -> s = s'.
Proof.
  intros H1 S1 H2 S2. destruct (understood_parses C _ _ H1) as (h1 & P1 & D1). destruct (understood_parses C _ _ H2) as (h2 & P2 & D2).
  assert (h1 = h2). { specialize (P1 [] []). specialize (P2 [] []). rewrite P1 in P2. apply pair_equal_spec in P2 as [P2 _]. now injection P2. }
  subst h2. destruct h1; cbn [denotes] in D1, D2; try contradiction.
  destruct (share_present _ _ _ _ D1 S1) as (g1 & E1). destruct (share_present _ _ _ _ D2 S2) as (g2 & E2). congruence.
Qed.

(** A Finished message determines its content. *)
Lemma finished_content C b v : understood C b (M_Finished v) -> skipn 4 b = v.
Proof. intros [(len & body & Hl & [_ ->] & ->) _]. rewrite app_assoc, skipn_app_exact; [reflexivity|]. rewrite app_length, uint_length. lia. Qed.

(** ** The ClientHello of an [open] that succeeded *)

Lemma hrun_log {V} C (p : provider V) cfg L s c h c' h' : hrun C p cfg L s c h c' h' -> exists evs, log_of (cn_wh c') = log_of (cn_wh c) ++ evs.
Proof.
  induction 1 as [c h|s c h s1 c1 h1 c2 h2 H1 H2 (evs & IH)]; [exists []; now rewrite app_nil_r|].
  assert (E : exists e, log_of (cn_wh c1) = log_of (cn_wh c) ++ e).
  { inversion H1; subst; try (match goal with H : sends _ _ _ _ _ _ |- _ => destruct H as (_ & Hl & _) end; eexists; exact Hl); exists []; now rewrite app_nil_r. }
  destruct E as (e & E). exists (e ++ evs). now rewrite IH, E, app_assoc.
Qed.

Lemma open_hello {V} C (p : provider V) cfg rbuf wbuf rx tx c0 v c hello evs : crypto_ok C -> 32 <= hash_len C -> length (p_random p) = 32 ->
  c_pub C (p_secret p) <> [] -> config_ok cfg ->
  (N.of_nat (hello_size cfg (length (c_pub C (p_secret p))) (hash_len C)) <= 65540)%N ->
  cn_new C rbuf wbuf rx tx = Ok c0 -> cn_open C p cfg v c0 = (Ok tt, c) ->
  sent_log c = tx_log tx ++ goes_out (SpecHandshake.hello_record hello) ++ evs ->
  exists binders, g_whole g_record (SpecHandshake.hello_record hello) =
      Some (mk_hello 0x0303 (p_random p) [] [code_point C] [x00] (offered cfg (c_pub C (p_secret p)) binders)).
Proof.
  intros HC H32 Hr Hpub Hcfg Hsz Hnew Hopen Hlog. destruct (cn_new_idle C rbuf wbuf rx tx c0 Hnew) as (Hid & _ & _ & Htx & _ & Hrd0 & Hks0 & _).
  destruct (open_ok C p cfg (length wbuf) v c0 tt c HC Hid Hopen) as (v0 & cz & hz & _ & Hrun & ->).
  inversion Hrun as [|s cx hx s1 c1 h1 c2 h2 Hp1 Hr1]. subst s cx hx c2 h2. clear Hrun.
  inversion Hp1 as [cx hx k1 hello' cx' Hearly Hsend E1 E2 E3 E4 E5 E6| | | | |]. subst cx hx s1 cx' h1. clear Hp1.
  rewrite Hks0 in Hearly. pose proof Hsend as (Hpl & Hl & _ & _ & _ & _ & _ & _ & Hid1 & _). cbn [payload_of] in Hpl.
  destruct (C08_key_schedule C (option_map fst (cfg_psk cfg)) [] [] [] HC) as (k1' & Hk1' & Hbk & _ & Htr1 & _). assert (k1' = k1) by congruence. subst k1'.
  set (ch := mk_ch cfg (p_random p) (p_secret p)) in *.
  assert (Hm : hello_msg C ch (ks_w k1) [] hello').
  { revert Hpl. unfold tr_of. cbn [cn_with_keysched cn_wh cn_rd wh_with_ks wh_ks rd_with_ks rd_ks]. rewrite Htr1. auto. }
  destruct (hello_read C ch (ks_w k1) hello' HC H32 Hr Hpub Hcfg Hm Hbk Hsz) as (_ & binders & Hg & _).
  assert (Hlog1 : log_of (cn_wh c1) = tx_log tx ++ goes_out (SpecHandshake.hello_record hello')).
  { rewrite Hl. unfold rec_wire, log_of. cbn [cr_header rh_is_encrypted plain_type cn_with_keysched cn_wh wh_with_ks wh_tx]. rewrite Htx. reflexivity. }
  assert (Hext : exists evs', log_of (cn_wh cz) = log_of (cn_wh c1) ++ evs').
  { exact (hrun_log C p cfg _ _ _ _ _ _ Hr1). }
  destruct Hext as (evs' & He).
  assert (hello = hello'). 
  { change (sent_log (set_opened cz)) with (log_of (cn_wh cz)) in Hlog. rewrite He, Hlog1, <- app_assoc in Hlog. apply app_inv_head in Hlog. symmetry. exact (goes_out_inj _ _ _ _ Hlog). }
  subst hello'. now exists binders.
Qed.
