(** * C08, C09, C11: key schedule, nonces, Finished *)
From Coq Require Import String List NArith Arith Bool Lia ZArith.
From Coq.Strings Require Import Byte.
From Coq Require Import ZifyBool ZifyNat ZifyN.
From Verif Require Import Base Crypto KeySchedule BaseProofs SpecWire WireProofs SpecKeys KeyProofs Toy.
Import ListNotations.
Local Open Scope list_scope.

(** ** C08 *)

(** The keys protecting one direction are those of the traffic secret [label] derived from
    [secret] over the transcript [messages], at sequence number 0. *)
Definition keys_of (C : crypto) (secret : bytes) (label : string) (messages : bytes) (k : kstate) : Prop :=
  exists s key iv,
    rfc_derive_secret C secret label messages = Some s /\
    rfc_key C s = Some key /\ rfc_iv C s = Some iv /\
    k_traffic k = Some s /\ k_key k = key /\ k_iv k = iv /\ k_counter k = 0%N.

(** From a fresh key schedule, the three phases (before ClientHello, after ServerHello, after
    the server's Finished) cannot fail, whatever the PSK, the ECDHE secret, the transcripts and
    whatever happened to counters and traffic keys between the phases, and they yield exactly
    the RFC 8446 secrets and keys. *)
Theorem C08_key_schedule : forall C psk dhe tr_sh tr_fin,
  crypto_ok C ->
  exists k1, initialize_early_secret C (ks_new C) psk = Ok k1 /\
    w_binder (ks_w k1) = rfc_binder_key C psk /\ w_binder (ks_w k1) <> None /\
    r_transcript (ks_r k1) = [] /\
    forall k1', ks_shared k1' = ks_shared k1 -> r_transcript (ks_r k1') = tr_sh ->
    exists hs k2, rfc_handshake C psk dhe = Some hs /\
      initialize_handshake_secret C k1' dhe = Ok k2 /\
      keys_of C hs "c hs traffic" tr_sh (w_state (ks_w k2)) /\
      keys_of C hs "s hs traffic" tr_sh (r_state (ks_r k2)) /\
      r_transcript (ks_r k2) = tr_sh /\
      forall k2', ks_shared k2' = ks_shared k2 -> r_transcript (ks_r k2') = tr_fin ->
      exists ms k3, rfc_master C psk dhe = Some ms /\
        initialize_master_secret C k2' = Ok k3 /\
        keys_of C ms "c ap traffic" tr_fin (w_state (ks_w k3)) /\
        keys_of C ms "s ap traffic" tr_fin (r_state (ks_r k3)) /\
        r_transcript (ks_r k3) = tr_fin.
Proof.
  intros C psk dhe tr_sh tr_fin HC.
  unfold initialize_early_secret. set (ikm := match psk with Some p => p | None => zeros (hash_len C) end).
  set (early := rfc_early C psk).
  assert (He : shared_initialize C (ks_shared (ks_new C)) ikm = mk_shared early (Some early)) by reflexivity.
  rewrite He. unfold derive_secret at 1, ctx_empty at 1. cbn [sh_hkdf].
  rewrite make_label_hash by (try assumption; cbn; lia).
  destruct (derive_total C early "ext binder" [] HC) as (b & Hb & Hbl).
  change (rfc_expand_label C early "ext binder" (c_hash C []) (hash_len C))
    with (rfc_derive_secret C early "ext binder" []). rewrite Hb. cbn [ok_or obind].
  rewrite from_prk_ok by assumption. cbn [obind].
  destruct (shared_derived_spec C (mk_shared early (Some early)) early HC eq_refl) as (d & Hd & Hdl & Hsd).
  rewrite Hsd. cbn [obind]. eexists; split; [reflexivity|]. cbn [ks_w w_binder ks_r].
  split; [symmetry; exact Hb|]. split; [discriminate|]. split; [reflexivity|].
  intros k1' Hk1 Htr1. cbn [ks_shared] in Hk1.
  set (hs := c_extract C d dhe). exists hs.
  unfold initialize_handshake_secret, calculate_traffic_secrets. cbn [ks_r ks_w ks_shared].
  rewrite Hk1, Htr1.
  change (shared_initialize C (mk_shared d (Some early)) dhe) with (mk_shared hs (Some hs)).
  destruct (calculate_traffic_secret_spec C (mk_shared hs (Some hs)) hs "c hs traffic" tr_sh HC eq_refl)
    as (s1 & key1 & iv1 & Hs1 & Hkey1 & Hiv1 & Hc1 & _); [cbn; lia|].
  destruct (calculate_traffic_secret_spec C (mk_shared hs (Some hs)) hs "s hs traffic" tr_sh HC eq_refl)
    as (s2 & key2 & iv2 & Hs2 & Hkey2 & Hiv2 & Hc2 & _); [cbn; lia|].
  rewrite Hc1. cbn [obind]. rewrite Hc2. cbn [obind ks_shared].
  destruct (shared_derived_spec C (mk_shared hs (Some hs)) hs HC eq_refl) as (d2 & Hd2 & Hdl2 & Hsd2).
  rewrite Hsd2. cbn [obind]. eexists; split; [|split; [reflexivity|]].
  { unfold rfc_handshake. fold early. rewrite Hd. reflexivity. }
  cbn [ks_w w_state ks_r r_state r_transcript].
  split; [exists s1, key1, iv1; repeat split; auto|].
  split; [exists s2, key2, iv2; repeat split; auto|]. split; [reflexivity|].
  intros k2' Hk2 Htr2. cbn [ks_shared] in Hk2.
  set (ms := c_extract C d2 (zeros (hash_len C))). exists ms.
  unfold initialize_master_secret, calculate_traffic_secrets. cbn [ks_r ks_w ks_shared].
  rewrite Hk2, Htr2.
  change (shared_initialize C (mk_shared d2 (Some hs)) (zeros (hash_len C))) with (mk_shared ms (Some ms)).
  destruct (calculate_traffic_secret_spec C (mk_shared ms (Some ms)) ms "c ap traffic" tr_fin HC eq_refl)
    as (s3 & key3 & iv3 & Hs3 & Hkey3 & Hiv3 & Hc3 & _); [cbn; lia|].
  destruct (calculate_traffic_secret_spec C (mk_shared ms (Some ms)) ms "s ap traffic" tr_fin HC eq_refl)
    as (s4 & key4 & iv4 & Hs4 & Hkey4 & Hiv4 & Hc4 & _); [cbn; lia|].
  rewrite Hc3. cbn [obind]. rewrite Hc4. cbn [obind ks_shared].
  destruct (shared_derived_spec C (mk_shared ms (Some ms)) ms HC eq_refl) as (d3 & Hd3 & Hdl3 & Hsd3).
  rewrite Hsd3. cbn [obind]. eexists; split; [|split; [reflexivity|]].
  { unfold rfc_master, rfc_handshake. fold early. rewrite Hd. fold hs. rewrite Hd2. reflexivity. }
  cbn [ks_w w_state ks_r r_state r_transcript].
  split; [exists s3, key3, iv3; repeat split; auto|].
  split; [exists s4, key4, iv4; repeat split; auto|]. reflexivity.
Qed.

(** The two directions, and handshake and application phases, use different labels: the HKDF
    inputs differ, so with an injective HKDF the secrets differ. *)
Theorem C08_labels_separate : forall n l1 l2 c1 c2,
  In l1 ["c hs traffic"; "s hs traffic"; "c ap traffic"; "s ap traffic"; "ext binder"; "derived"]%string ->
  In l2 ["c hs traffic"; "s hs traffic"; "c ap traffic"; "s ap traffic"; "ext binder"; "derived"]%string ->
  rfc_hkdf_label n l1 c1 = rfc_hkdf_label n l2 c2 -> l1 = l2.
Proof.
  intros n l1 l2 c1 c2 H1 H2 H. unfold rfc_hkdf_label in H. apply app_inv_head in H.
  cbn [In] in H1, H2.
  repeat match goal with H : _ \/ _ |- _ => destruct H as [H|H] end; subst; try contradiction;
    try reflexivity; exfalso; vm_compute in H; discriminate.
Qed.

(** The hypotheses are met: the toy suite satisfies [crypto_ok] and yields concrete keys. *)
Example C08_example : crypto_ok toy /\
  (let r k tr := ks_with_r k (r_with_transcript (ks_r k) tr) in
   exists w2 r2 w3, (k1 <-- initialize_early_secret toy (ks_new toy) (Some [x01; x02]) ;;
    k2 <-- initialize_handshake_secret toy (r k1 [x16; x03]) [x07; x08] ;;
    k3 <-- initialize_master_secret toy (r k2 [x16; x03; x05]) ;;
    Ok (firstn 2 (k_key (w_state (ks_w k2))), firstn 2 (k_key (r_state (ks_r k2))),
        firstn 2 (k_key (w_state (ks_w k3))))) = Ok (w2, r2, w3) /\ w2 <> r2 /\ w3 <> w2).
Proof.
  split; [exact toy_ok|]. do 3 eexists. split; [vm_compute; reflexivity|]. split; discriminate.
Qed.

(** ** C09 *)

(** The nonce of the record with sequence number [n]. *)
Theorem C09_nonce_value : forall C k, crypto_ok C -> length (k_iv k) = iv_len C ->
  kstate_nonce C k = Ok (rfc_nonce (k_iv k) (k_counter k)) /\
  length (rfc_nonce (k_iv k) (k_counter k)) = iv_len C.
Proof.
  intros C k HC Hl. split; [apply get_nonce_spec; assumption|].
  rewrite rfc_nonce_length; rewrite Hl; auto. apply ok_iv_len, HC.
Qed.

Theorem C09_nonce_injective : forall iv n m, 8 <= length iv ->
  (n < 2 ^ 64)%N -> (m < 2 ^ 64)%N -> rfc_nonce iv n = rfc_nonce iv m -> n = m.
Proof. intros iv n m Hl Hn Hm H. eapply rfc_nonce_inj; eauto. Qed.

(** The counter: incrementing adds one and keeps the key and IV, or panics at 2^64-1; it never
    wraps.  Hence after any number of increments the counter is the start plus their number. *)
Fixpoint increments (n : nat) (k : kstate) : outcome tls_error kstate :=
  match n with O => Ok k | S n' => k' <-- increment_counter k ;; increments n' k' end.

Theorem C09_counter : forall n k, (k_counter k < 2 ^ 64)%N ->
  if (k_counter k + N.of_nat n <? 2 ^ 64)%N
  then increments n k = Ok (mk_kstate (k_traffic k) (k_counter k + N.of_nat n) (k_key k) (k_iv k))
  else increments n k = Panic PUnwrap.
Proof.
  assert (Hp : (2 ^ 64 = 18446744073709551616)%N) by reflexivity. rewrite Hp.
  induction n as [|n IH]; intros k Hk; cbn [increments].
  - destruct k as [t c key iv]; cbn [k_traffic k_counter k_key k_iv] in *.
    replace (c + N.of_nat 0)%N with c by lia. rewrite (proj2 (N.ltb_lt _ _) Hk). reflexivity.
  - unfold increment_counter, u64_max.
    destruct (k_counter k <? 18446744073709551615)%N eqn:E; cbn [obind].
    + specialize (IH (mk_kstate (k_traffic k) (k_counter k + 1) (k_key k) (k_iv k))).
      cbn [k_counter k_traffic k_key k_iv] in IH.
      replace (k_counter k + N.of_nat (S n))%N with (k_counter k + 1 + N.of_nat n)%N by lia.
      apply IH. apply N.ltb_lt in E. lia.
    + apply N.ltb_ge in E.
      destruct (k_counter k + N.of_nat (S n) <? 18446744073709551616)%N eqn:E2; [|reflexivity].
      apply N.ltb_lt in E2. lia.
Qed.

(** Every traffic key starts at sequence number 0. *)
Theorem C09_starts_at_zero : forall C sh label tr k,
  calculate_traffic_secret C sh label tr = Ok k -> k_counter k = 0%N.
Proof.
  intros C sh label tr k H. unfold calculate_traffic_secret in H.
  repeat (apply obind_ok in H; destruct H as [? [_ H]]). now inversion H.
Qed.

Example C09_example :
  8 <= length (repeat x05 12) /\
  rfc_nonce (repeat x05 12) 258 = repeat x05 10 ++ [x04; x07] /\
  increments 3 (mk_kstate None (2 ^ 64 - 3) [] []) = Panic PUnwrap.
Proof. repeat split; try (cbn; lia); vm_compute; reflexivity. Qed.

(** ** C11 *)

(** Everything with a known traffic secret: the server's Finished is accepted iff its
    verify_data is the RFC value over [messages], the transcript up to (excluding) it. *)
Theorem C11_server_finished : forall C r secret messages verify,
  crypto_ok C -> k_traffic (r_state r) = Some secret ->
  exists vd, rfc_verify_data C secret messages = Some vd /\
    (verify_server_finished C r verify (Some (c_hash C messages)) = Ok true <-> verify = vd) /\
    (verify_server_finished C r verify (Some (c_hash C messages)) = Ok false <-> verify <> vd).
Proof.
  intros C r secret messages verify HC Hs. unfold verify_server_finished, rfc_verify_data. rewrite Hs.
  rewrite make_label_none by (try assumption; cbn; lia).
  destruct (expand_label_total C secret "finished" [] (hash_len C) HC) as (key & Hk & _).
  { destruct (ok_sizes C HC). lia. }
  rewrite Hk. cbn [ok_or obind]. eexists; split; [reflexivity|].
  destruct (bytes_eqb (c_hmac C key (c_hash C messages)) verify) eqn:E.
  - apply bytes_eqb_eq in E. split; split; intro; congruence.
  - assert (verify <> c_hmac C key (c_hash C messages)).
    { intros ->. rewrite bytes_eqb_refl in E. discriminate. }
    split; split; intro; congruence.
Qed.

(** The client's Finished. *)
Theorem C11_client_finished : forall C k secret,
  crypto_ok C -> k_traffic (w_state (ks_w k)) = Some secret ->
  exists vd, rfc_verify_data C secret (r_transcript (ks_r k)) = Some vd /\
    create_client_finished C k = Ok vd /\ length vd = hash_len C.
Proof.
  intros C k secret HC Hs. unfold create_client_finished, rfc_verify_data. rewrite Hs.
  rewrite make_label_none by (try assumption; cbn; lia).
  destruct (expand_label_total C secret "finished" [] (hash_len C) HC) as (key & Hk & _).
  { destruct (ok_sizes C HC). lia. }
  rewrite Hk. cbn [ok_or obind]. eexists; split; [reflexivity|]. split; [reflexivity|].
  apply ok_hmac_len, HC.
Qed.

Example C11_example :
  let r := mk_rks (mk_kstate (Some (repeat x09 32)) 0 [] []) [x01] in
  exists vd, rfc_verify_data toy (repeat x09 32) [x01; x02] = Some vd /\ length vd = 32 /\
    verify_server_finished toy r vd (Some (c_hash toy [x01; x02])) = Ok true /\
    verify_server_finished toy r (x00 :: tl vd) (Some (c_hash toy [x01; x02])) = Ok false.
Proof. eexists. repeat split; vm_compute; reflexivity. Qed.

Print Assumptions C08_key_schedule.
Print Assumptions C08_labels_separate.
Print Assumptions C09_nonce_value.
Print Assumptions C09_nonce_injective.
Print Assumptions C09_counter.
Print Assumptions C09_starts_at_zero.
Print Assumptions C11_server_finished.
Print Assumptions C11_client_finished.
