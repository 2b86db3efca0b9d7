(** * C57: a server that declines the pre-shared key *)
From Coq Require Import String List NArith Arith Bool Lia ZArith.
From Coq.Strings Require Import Byte.
From Verif Require Import Base ParseBuffer Buffer Codes Extensions Crypto KeySchedule Config Handshake Record WriteBuffer
  Transport RecordReader ReadBuffer Connection Api BaseProofs SpecWire SpecCodes SpecMessages WireProofs SpecKeys SpecRecord SpecSend SpecRead SpecHandshake
  SpecHello PropHello SpecComplete RecordProofs ServeProofs CompleteProofs PropComplete SpecFailure CaseProofs PropFailure
  SpecServer ServerProofs Toy ToyRun ToyServer PropServer.
Import ListNotations.
Local Open Scope list_scope.

(** RFC 8446 section 4.2.11: a server that does not want the pre-shared key leaves the extension out of its ServerHello, and both sides go on
    without it.  The client does not look.  [y] is the handshake as the server sees it, without a pre-shared key; [x] is what
    the client makes of it, with the key; both have the same messages up to the ServerHello.  Unless the server's first record opens, by
    accident, with the client's keys, [open] ends with [CryptoError] - in every client that has a pre-shared key. *)
Theorem C57_declined_any_refuted : forall V C (p : provider V) cfg wbuf tx v v0 psk ids, crypto_ok C -> length (p_random p) = 32 ->
  hello_size cfg (length (c_pub C (p_secret p))) (hash_len C) <= length wbuf ->
  Forall (eq WrOk) (tx_wr tx) -> Forall (eq FlOk) (tx_fl tx) -> told p cfg v v0 -> cfg_psk cfg = Some (psk, ids) ->
  exists hello,
    (forall rbuf rx c0, cn_new C rbuf wbuf rx tx = Ok c0 ->
       exists evs, sent_log (snd (cn_open C p cfg v c0)) = tx_log tx ++ goes_out (SpecHandshake.hello_record hello) ++ evs) /\
    forall rbuf rx c0 x y content pad rest, cn_new C rbuf wbuf rx tx = Ok c0 -> chunked rx ->
      x_hello x = hello -> x_hello y = hello -> x_shello y = x_shello x -> x_share y = x_share x ->
      understood C (x_shello x) (M_ServerHello (x_suite x) (x_items x)) -> (forall b, ~ In (41%N, b) (x_items x)) ->
      share_of (x_items x) (x_group x) (x_share x) ->
      secrets_ok C (Some psk) (p_secret p) x -> secrets_ok C None (p_secret p) y ->
      let r := rfc_record C (x_skey y) (x_siv y) 0 ty_handshake content pad in
      stream rx = uint 1 22 ++ uint 2 0x0303 ++ vec 2 (x_shello x) ++ r ++ rest ->
      fits 2 (x_shello x) -> length (x_shello x) <= length rbuf ->
      length content + 1 + pad + tag_len C <= length rbuf -> (N.of_nat (length content + 1 + pad + tag_len C) < 65536)%N ->
      rfc_open C (x_skey x) (x_siv x) 0 (firstn 5 r) (skipn 5 r) = None ->
      exists c, cn_open C p cfg v c0 = (Err CryptoError, c) /\
        sent_log c = tx_log tx ++ goes_out (SpecHandshake.hello_record hello) ++ told_peer (Err CryptoError).
Proof.
  intros V C p cfg wbuf tx v v0 psk ids HC Hr Hs H1 H2 Ht Hpsk.
  destruct (C53_later V C p cfg wbuf tx v v0 HC Hr Hs H1 H2 Ht) as (hello & Hsent & H). exists hello. split; [exact Hsent|].
  intros rbuf rx c0 x y content pad rest Hnew Hch E1 F1 F2 F3 Hu _ Hso Hsec Hsy r Hst Hf2 Hl Hroom Hsz Hno. unfold r in Hst, Hno. clear r.
  destruct (rfc_record_parts C (x_skey y) (x_siv y) 0 ty_handshake content pad HC) as (f & Ef & Hlen & _). rewrite (ok_tag_len C HC) in Hroom, Hsz.
  rewrite Ef in Hst, Hno. set (h := rfc_header (length content + 1 + pad + 16)) in *. assert (Hh5 : length h = 5) by reflexivity.
  rewrite <- Hh5, firstn_app, Nat.sub_diag, firstn_all, firstn_O, app_nil_r, skipn_app, Nat.sub_diag, skipn_all in Hno. cbn [app skipn] in Hno.
  pose proof (proj1 (fits_2 _) Hf2) as Hf2'.
  assert (Hbg : begun C p (length rbuf) (stream rx) x [] 0 v0 v0 (h ++ f ++ rest)).
  { exists (uint 1 22 ++ uint 2 0x0303 ++ uint 2 (N.of_nat (length (x_shello x)))), [], []. rewrite app_nil_r.
    split. { rewrite Hst. unfold wire_of, vec. cbn [map concat fst snd]. rewrite !app_nil_r, <- !app_assoc. reflexivity. }
    split. { split; [rewrite !app_length, !uint_length; reflexivity|]. change (skipn 3 (uint 1 22 ++ uint 2 0x0303 ++ uint 2 (N.of_nat (length (x_shello x))))) with (uint 2 (N.of_nat (length (x_shello x)))).
      apply be_val_uint_small. exact Hf2. }
    split; [reflexivity|]. split; [exact Hu|]. split; [exact Hso|]. split; [constructor|]. split; [constructor|]. split; [intros (m & [] & _)|].
    split; [constructor; [exact Hl|constructor]|]. split; reflexivity. }
  assert (Hpk : secrets_ok C (option_map fst (cfg_psk cfg)) (p_secret p) x) by (rewrite Hpsk; exact Hsec).
  destruct (H rbuf rx c0 x [] 0%N v0 _ Hnew Hch E1 Hbg Hpk) as [_ G].
  destruct (G h f rest eq_refl) as [K _]; [apply rfc_header_framed; assumption|lia|].
  destruct (K (Err CryptoError)) as (c & Hc); [apply rf_forged; [reflexivity|exact Hno]|eauto].
Qed.
Print Assumptions C57_declined_any_refuted.

(** The server of PropServer.v that knows none of the identities. *)
Definition kept_key : exchange := Eval vm_compute in
  let y := declined in
  match rfc_handshake toy (Some [x0a; x0b]) (x_dhe y) with
  | Some hs =>
      match rfc_derive_secret toy hs "c hs traffic" (x_hellos y), rfc_derive_secret toy hs "s hs traffic" (x_hellos y) with
      | Some c, Some s =>
          match rfc_key toy c, rfc_iv toy c, rfc_key toy s, rfc_iv toy s with
          | Some ck, Some ci, Some sk, Some si =>
              mk_exchange (x_hello y) (x_shello y) (x_suite y) (x_items y) (x_group y) (x_share y) [] [] [] [] (x_dhe y) c s ck ci sk si
          | _, _, _, _ => y
          end
      | _, _ => y
      end
  | None => y
  end.

Example C57_declined_case :
  cfg_psk psk_config = Some ([x0a; x0b], [[x31]; [x32; x33]]) /\ x_hello kept_key = psk_hello /\ x_hello declined = psk_hello /\
  x_shello declined = x_shello kept_key /\ x_share declined = x_share kept_key /\
  understood toy (x_shello kept_key) (M_ServerHello (x_suite kept_key) (x_items kept_key)) /\
  share_of (x_items kept_key) (x_group kept_key) (x_share kept_key) /\ (forall b, ~ In (41%N, b) (x_items kept_key)) /\
  secrets_ok toy (Some [x0a; x0b]) (p_secret plain_provider) kept_key /\ secrets_ok toy None (p_secret plain_provider) declined /\
  (let r := rfc_record toy (x_skey declined) (x_siv declined) 0 ty_handshake (raw (x_msgs declined)) 3 in
   stream declined_rx = uint 1 22 ++ uint 2 0x0303 ++ vec 2 (x_shello kept_key) ++ r ++ [] /\
   rfc_open toy (x_skey kept_key) (x_siv kept_key) 0 (firstn 5 r) (skipn 5 r) = None).
Proof.
  assert (HC : In (code_point toy) (map fst iana_cipher_suite)) by (vm_compute; auto).
  destruct (shello_understood toy deaf_server None toy_ok eq_refl HC) as (H1 & H2 & _).
  assert (E1 : message (F_ServerHello 0x0303 (s_random deaf_server) [] (code_point toy) 0) (hello_items toy deaf_server None) = x_shello kept_key) by (vm_compute; reflexivity).
  assert (E2 : hello_items toy deaf_server None = x_items kept_key) by (vm_compute; reflexivity).
  assert (E3 : c_pub toy (s_secret deaf_server) = x_share kept_key) by (vm_compute; reflexivity).
  rewrite E1, E2 in H1. rewrite E2, E3 in H2. clear E1 E2 E3.
  do 5 (split; [vm_compute; reflexivity|]). split; [exact H1|]. split; [exact H2|]. split.
  { intros b. vm_compute. intros [E|[E|[]]]; discriminate E. }
  split. { split; [vm_compute; reflexivity|]. eexists. do 6 (split; [vm_compute; reflexivity|]). vm_compute; reflexivity. }
  split. { split; [vm_compute; reflexivity|]. eexists. do 6 (split; [vm_compute; reflexivity|]). vm_compute; reflexivity. }
  split; vm_compute; reflexivity.
Qed.
